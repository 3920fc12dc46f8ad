(* Round trip of the DER model. *)
From Verif Require Import Base Asn1Model.
Local Open Scope N_scope.

Lemma nbytesF_spec n : n < 2 ^ 31 -> (nbytesF 7 n <= 4)%nat /\ n < 256 ^ N.of_nat (nbytesF 7 n) /\ (255 < n -> 256 ^ (N.of_nat (nbytesF 7 n) - 1) <= n).
Proof.
  intros H. cbn [nbytesF]. destruct (N.ltb_spec 255 n); [|change (256 ^ N.of_nat 1) with 256; lia].
  destruct (N.ltb_spec 255 (n / 256)); [|change (256 ^ N.of_nat 2) with 65536; change (256 ^ (N.of_nat 2 - 1)) with 256; lia].
  destruct (N.ltb_spec 255 (n / 256 / 256)); [|change (256 ^ N.of_nat 3) with 16777216; change (256 ^ (N.of_nat 3 - 1)) with 65536; lia].
  destruct (N.ltb_spec 255 (n / 256 / 256 / 256)); [exfalso; change (2 ^ 31) with 2147483648 in H; lia|].
  change (256 ^ N.of_nat 4) with 4294967296; change (256 ^ (N.of_nat 4 - 1)) with 16777216; lia.
Qed.
Lemma lenLoop_be k : forall acc v r, (k <= 4)%nat -> v < 256 ^ N.of_nat k -> acc * 256 ^ N.of_nat k + v < 2 ^ 31 ->
  (k <> 0%nat -> acc = 0 -> 256 ^ (N.of_nat k - 1) <= v) -> lenLoop k acc (be k v ++ r) = Ok (acc * 256 ^ N.of_nat k + v, r).
Proof.
  intros acc v r K V B M. change (2 ^ 31) with 2147483648 in B.
  destruct k as [|[|[|[|[|k]]]]]; [| | | | |lia]; cbn [be app lenLoop]; change (2 ^ 23) with 8388608.
  - change (256 ^ N.of_nat 0) with 1 in *. replace v with 0 by lia. rewrite N.mul_1_r, N.add_0_r. reflexivity.
  - change (256 ^ N.of_nat 1) with 256 in *. change (256 ^ (N.of_nat 1 - 1)) with 1 in M.
    destruct (N.leb_spec 8388608 acc); [lia|]. destruct (N.eqb_spec (acc * 256 + v mod 256) 0); [lia|]. f_equal. f_equal. lia.
  - change (256 ^ N.of_nat 2) with 65536 in *. change (256 ^ (N.of_nat 2 - 1)) with 256 in M.
    destruct (N.leb_spec 8388608 acc); [lia|]. destruct (N.eqb_spec (acc * 256 + v / 256 mod 256) 0); [lia|].
    destruct (N.leb_spec 8388608 (acc * 256 + v / 256 mod 256)); [lia|].
    destruct (N.eqb_spec ((acc * 256 + v / 256 mod 256) * 256 + v mod 256) 0); [lia|]. f_equal. f_equal. lia.
  - change (256 ^ N.of_nat 3) with 16777216 in *. change (256 ^ (N.of_nat 3 - 1)) with 65536 in M.
    destruct (N.leb_spec 8388608 acc); [lia|]. destruct (N.eqb_spec (acc * 256 + v / 256 / 256 mod 256) 0); [lia|].
    destruct (N.leb_spec 8388608 (acc * 256 + v / 256 / 256 mod 256)); [lia|].
    destruct (N.eqb_spec ((acc * 256 + v / 256 / 256 mod 256) * 256 + v / 256 mod 256) 0); [lia|].
    destruct (N.leb_spec 8388608 ((acc * 256 + v / 256 / 256 mod 256) * 256 + v / 256 mod 256)); [lia|].
    destruct (N.eqb_spec (((acc * 256 + v / 256 / 256 mod 256) * 256 + v / 256 mod 256) * 256 + v mod 256) 0); [lia|]. f_equal. f_equal. lia.
  - change (256 ^ N.of_nat 4) with 4294967296 in *. change (256 ^ (N.of_nat 4 - 1)) with 16777216 in M.
    destruct (N.leb_spec 8388608 acc); [lia|]. destruct (N.eqb_spec (acc * 256 + v / 256 / 256 / 256 mod 256) 0); [lia|].
    destruct (N.leb_spec 8388608 (acc * 256 + v / 256 / 256 / 256 mod 256)); [lia|].
    destruct (N.eqb_spec ((acc * 256 + v / 256 / 256 / 256 mod 256) * 256 + v / 256 / 256 mod 256) 0); [lia|].
    destruct (N.leb_spec 8388608 ((acc * 256 + v / 256 / 256 / 256 mod 256) * 256 + v / 256 / 256 mod 256)); [lia|].
    destruct (N.eqb_spec (((acc * 256 + v / 256 / 256 / 256 mod 256) * 256 + v / 256 / 256 mod 256) * 256 + v / 256 mod 256) 0); [lia|].
    destruct (N.leb_spec 8388608 (((acc * 256 + v / 256 / 256 / 256 mod 256) * 256 + v / 256 / 256 mod 256) * 256 + v / 256 mod 256)); [lia|].
    destruct (N.eqb_spec ((((acc * 256 + v / 256 / 256 / 256 mod 256) * 256 + v / 256 / 256 mod 256) * 256 + v / 256 mod 256) * 256 + v mod 256) 0); [lia|]. f_equal. f_equal. lia.
Qed.
Lemma parseLen_derLen n r : n < 2 ^ 31 -> parseLen (derLen n ++ r) = Ok (n, r).
Proof.
  intros H. unfold derLen. destruct (N.ltb_spec n 128) as [L|L]; cbn [app parseLen].
  - destruct (N.ltb_spec n 128); [reflexivity|lia].
  - destruct (nbytesF_spec n H) as (K & B & M). set (k := nbytesF 7 n) in *.
    assert (K1 : (1 <= k)%nat) by (subst k; cbn [nbytesF]; destruct (255 <? n); lia).
    destruct (N.ltb_spec (128 + N.of_nat k) 128); [lia|]. destruct (N.eqb_spec (128 + N.of_nat k) 128); [lia|].
    replace (N.to_nat (128 + N.of_nat k - 128)) with k by lia. rewrite lenLoop_be; try assumption; try (rewrite N.mul_0_l, N.add_0_l; exact H).
    + rewrite N.mul_0_l, N.add_0_l. cbn [rbind]. destruct (N.ltb_spec n 128); [lia|reflexivity].
    + intros _ _. destruct (N.ltb_spec 255 n); [apply M; assumption|]. assert (k = 1%nat) as -> by (subst k; cbn [nbytesF]; destruct (N.ltb_spec 255 n); [lia|reflexivity]).
      change (256 ^ (N.of_nat 1 - 1)) with 1. lia.
Qed.
Lemma parseTLV_tlv tags tag body r : existsb (N.eqb tag) tags = true -> lenN body < 2 ^ 31 -> parseTLV tags (tlv tag body ++ r) = Ok (tag, body, r).
Proof.
  intros T L. unfold tlv, parseTLV. rewrite <- app_comm_cons, <- app_assoc. rewrite T, parseLen_derLen by exact L. cbn [rbind].
  rewrite lenN_app. destruct (N.ltb_spec (lenN body + lenN r) (lenN body)); [lia|]. rewrite takeN_app, dropN_app by reflexivity. reflexivity.
Qed.
Lemma intLenF_spec f : forall z, (- 2 ^ (8 * Z.of_nat f + 7) <= z < 2 ^ (8 * Z.of_nat f + 7))%Z -> let k := Z.of_nat (intLenF f z) in
  (k <= Z.of_nat f + 1)%Z /\ (1 <= k)%Z /\ (- 2 ^ (8 * k - 1) <= z < 2 ^ (8 * k - 1))%Z /\ (k <> 1 -> ~ (- 2 ^ (8 * (k - 1) - 1) <= z < 2 ^ (8 * (k - 1) - 1)))%Z.
Proof.
  induction f as [|f IH]; intros z H; cbn [intLenF].
  - change (8 * Z.of_nat 0 + 7)%Z with 7%Z in H. change (8 * Z.of_nat 1 - 1)%Z with 7%Z. repeat split; try lia.
  - destruct ((127 <? z) || (z <? -128))%Z eqn:E.
    + assert (P : (2 ^ (8 * Z.of_nat (S f) + 7) = 256 * 2 ^ (8 * Z.of_nat f + 7))%Z).
      { replace (8 * Z.of_nat (S f) + 7)%Z with (8 + (8 * Z.of_nat f + 7))%Z by lia. rewrite Z.pow_add_r by lia. reflexivity. }
      rewrite P in H. destruct (IH (z / 256)%Z) as (I1 & I2 & I3 & I4); [lia|]. set (k := intLenF f (z / 256)%Z) in *.
      replace (Z.of_nat (S k)) with (Z.of_nat k + 1)%Z by lia.
      assert (Q : (2 ^ (8 * (Z.of_nat k + 1) - 1) = 256 * 2 ^ (8 * Z.of_nat k - 1))%Z).
      { replace (8 * (Z.of_nat k + 1) - 1)%Z with (8 + (8 * Z.of_nat k - 1))%Z by lia. rewrite Z.pow_add_r by lia. reflexivity. }
      rewrite Q. repeat split; try lia. intros _. replace (8 * (Z.of_nat k + 1 - 1) - 1)%Z with (8 * Z.of_nat k - 1)%Z by lia.
      destruct (Z.eq_dec (Z.of_nat k) 1) as [K|K].
      * rewrite K. change (2 ^ (8 * 1 - 1))%Z with 128%Z. lia.
      * specialize (I4 K). assert (R : (2 ^ (8 * Z.of_nat k - 1) = 256 * 2 ^ (8 * (Z.of_nat k - 1) - 1))%Z).
        { replace (8 * Z.of_nat k - 1)%Z with (8 + (8 * (Z.of_nat k - 1) - 1))%Z by lia. rewrite Z.pow_add_r by lia. reflexivity. }
        rewrite R. lia.
    + change (8 * Z.of_nat 1 - 1)%Z with 7%Z. change (2 ^ 7)%Z with 128%Z. repeat split; lia.
Qed.
(* reading the top bits of a big-endian number *)
Lemma be_head k v : exists x r, be (S k) v = x :: r /\ lenN r = N.of_nat k /\ x = (v / 256 ^ N.of_nat k) mod 256 /\ r = be k v.
Proof.
  revert v; induction k as [|k IH]; intros v.
  - exists (v mod 256), []. cbn [be app]. change (256 ^ N.of_nat 0) with 1. rewrite N.div_1_r. auto.
  - destruct (IH (v / 256)) as (x & r & E & L & X & R). change (be (S (S k)) v) with (be (S k) (v / 256) ++ [v mod 256]). rewrite E.
    exists x, (r ++ [v mod 256]). split; [reflexivity|]. split; [rewrite lenN_app, L; change (lenN [v mod 256]) with 1; lia|]. split.
    + rewrite X. rewrite pow256_S. rewrite N.div_div by (try lia; apply N.pow_nonzero; lia). reflexivity.
    + rewrite R. reflexivity.
Qed.
Lemma minimal_top z p v x y : (0 < p)%Z -> (v = if z <? 0 then z + 256 * 256 * p else z)%Z -> (Z.of_N y = (v / p) mod 256)%Z -> (Z.of_N x = v / p / 256)%Z ->
  ~ (- (128 * p) <= z < 128 * p)%Z -> (128 <=? x) = (z <? 0)%Z -> ((x =? 0) && (y <? 128)) || ((x =? 255) && (128 <=? y)) = false.
Proof.
  intros P V Y X I T.
  pose proof (Z.mul_div_le v p P) as Q1. pose proof (Z.mul_succ_div_gt v p P) as Q2.
  assert (Q : (v / p = 256 * Z.of_N x + Z.of_N y)%Z) by (rewrite X, Y; apply Z.div_mod; discriminate).
  set (q := (v / p)%Z) in *. clearbody q. clear X Y. rewrite Z.mul_comm in Q1, Q2. replace (Z.succ q * p)%Z with (q * p + p)%Z in Q2 by (rewrite Z.mul_succ_l; reflexivity).
  destruct (N.eqb_spec x 0) as [X0|X0]; destruct (N.eqb_spec x 255) as [X1|X1]; cbn [andb orb]; try reflexivity; [congruence|rewrite orb_false_r|].
  - apply N.ltb_ge. destruct (N.le_gt_cases 128 y) as [G|G]; [exact G|]. exfalso. subst x. change (128 <=? 0) with false in T. rewrite <- T in V.
    symmetry in T. apply Z.ltb_ge in T. apply I. assert (q * p <= 127 * p)%Z by (apply Z.mul_le_mono_nonneg_r; lia). lia.
  - apply N.leb_gt. destruct (N.le_gt_cases 128 y) as [G|G]; [|exact G]. exfalso. subst x. change (128 <=? 255) with true in T. rewrite <- T in V.
    symmetry in T. apply Z.ltb_lt in T. apply I. assert (65408 * p <= q * p)%Z by (apply Z.mul_le_mono_nonneg_r; lia). lia.
Qed.
Lemma parseInt64_bytes z : (- 2 ^ 63 <= z < 2 ^ 63)%Z -> parseInt64 (intBytes z) = Ok z.
Proof.
  intros H. unfold intBytes. destruct (intLenF_spec 7 z) as (I1 & I2 & I3 & I4); [exact H|]. set (k := intLenF 7 z) in *.
  destruct k as [|k]; [lia|]. set (v := Z.to_N (z mod 256 ^ Z.of_nat (S k))).
  assert (PW : (256 ^ Z.of_nat (S k) = 2 * 2 ^ (8 * Z.of_nat (S k) - 1))%Z).
  { rewrite <- Z.pow_succ_r by lia. replace (Z.succ (8 * Z.of_nat (S k) - 1)) with (8 * Z.of_nat (S k))%Z by lia. rewrite Z.pow_mul_r by lia. reflexivity. }
  assert (V : Z.of_N v = (if z <? 0 then z + 256 ^ Z.of_nat (S k) else z)%Z).
  { subst v. rewrite Z2N.id by (apply Z.mod_pos_bound; lia). destruct (Z.ltb_spec z 0).
    - symmetry. apply Z.mod_unique with (-1)%Z; lia.
    - apply Z.mod_small; lia. }
  assert (NP : (Z.of_N (256 ^ N.of_nat (S k)) = 256 ^ Z.of_nat (S k))%Z) by (rewrite N2Z.inj_pow, nat_N_Z; reflexivity).
  assert (NQ : (Z.of_N (256 ^ N.of_nat k) = 256 ^ Z.of_nat k)%Z) by (rewrite N2Z.inj_pow, nat_N_Z; reflexivity).
  assert (PK : (256 ^ Z.of_nat (S k) = 256 * 256 ^ Z.of_nat k)%Z) by (rewrite Nat2Z.inj_succ, Z.pow_succ_r by lia; reflexivity).
  assert (PP : (0 < 256 ^ Z.of_nat k)%Z) by (apply Z.pow_pos_nonneg; lia).
  assert (VB : v < 256 ^ N.of_nat (S k)) by (destruct (Z.ltb_spec z 0); lia).
  destruct (be_head k v) as (x & r & E & L & X & R).
  assert (XV : (Z.of_N x = Z.of_N v / 256 ^ Z.of_nat k)%Z).
  { rewrite X, N2Z.inj_mod, N2Z.inj_div, NQ. apply Z.mod_small. split; [apply Z.div_pos; lia|]. apply Z.div_lt_upper_bound; lia. }
  assert (TOP : (128 <=? x) = (z <? 0)%Z).
  { destruct (Z.ltb_spec z 0); [apply N.leb_le|apply N.leb_gt].
    - enough (128 <= Z.of_N v / 256 ^ Z.of_nat k)%Z by lia. apply Z.div_le_lower_bound; lia.
    - enough (Z.of_N v / 256 ^ Z.of_nat k < 128)%Z by lia. apply Z.div_lt_upper_bound; lia. }
  unfold parseInt64. rewrite E. rewrite <- E, lenN_be, be_dec_be_id by exact VB. try rewrite E; cbn iota beta.
  assert (M : (match r with y :: _ => ((x =? 0) && (y <? 128)) || ((x =? 255) && (128 <=? y)) | [] => false end) = false).
  { destruct r as [|y r]; [reflexivity|]. destruct k as [|k]; [rewrite lenN_cons in L; lia|].
    destruct (be_head k v) as (y' & r' & E' & _ & Y & _). rewrite <- R in E'. injection E' as -> ->.
    assert (NR : (Z.of_N (256 ^ N.of_nat k) = 256 ^ Z.of_nat k)%Z) by (rewrite N2Z.inj_pow, nat_N_Z; reflexivity).
    assert (PK' : (256 ^ Z.of_nat (S k) = 256 * 256 ^ Z.of_nat k)%Z) by (rewrite (Nat2Z.inj_succ k), Z.pow_succ_r by lia; reflexivity).
    assert (PP' : (0 < 256 ^ Z.of_nat k)%Z) by (apply Z.pow_pos_nonneg; lia).
    assert (PH : (2 ^ (8 * (Z.of_nat (S (S k)) - 1) - 1) = 128 * 256 ^ Z.of_nat k)%Z).
    { replace (8 * (Z.of_nat (S (S k)) - 1) - 1)%Z with (7 + 8 * Z.of_nat k)%Z by lia. rewrite Z.pow_add_r, Z.pow_mul_r by lia. reflexivity. }
    rewrite PH in I4. specialize (I4 ltac:(lia)).
    assert (YV : (Z.of_N y' = (Z.of_N v / 256 ^ Z.of_nat k) mod 256)%Z) by (rewrite Y, N2Z.inj_mod, N2Z.inj_div, NR; reflexivity).
    assert (XV' : (Z.of_N x = Z.of_N v / 256 ^ Z.of_nat k / 256)%Z) by (rewrite XV, PK', Z.div_div by lia; f_equal; apply Z.mul_comm).
    apply (minimal_top z (256 ^ Z.of_nat k)%Z (Z.of_N v) x y'); try assumption.
    - rewrite V, PK, PK', Z.mul_assoc. reflexivity. }
  rewrite M. destruct (N.ltb_spec 8 (N.of_nat (S k))); [lia|]. rewrite TOP. f_equal. rewrite V, nat_N_Z. destruct (Z.ltb_spec z 0); lia.
Qed.
Lemma intBytes_len z : (- 2 ^ 63 <= z < 2 ^ 63)%Z -> 1 <= lenN (intBytes z) <= 8.
Proof. intros H. unfold intBytes. rewrite lenN_be. destruct (intLenF_spec 7 z) as (I1 & I2 & _); [exact H|]. lia. Qed.

(* which values survive: integers in range, sizes below 2^31 *)
Definition dvOk (t : dt) (v : dv) : Prop :=
  match t, v with
  | TInt32, DInt z => (- 2147483648 <= z <= 2147483647)%Z
  | TInt64, DInt z => (- 2 ^ 63 <= z < 2 ^ 63)%Z
  | TBool, DBool _ => True
  | TOct, DOct b => lenN b < 2 ^ 31
  | TStr, DStr s => lenN s < 2 ^ 31
  | _, _ => False
  end.
Lemma decField_enc t v e r : dvOk t v -> encField v = Some e -> decField t (e ++ r) = Ok (v, r).
Proof.
  intros O E. destruct t, v; try contradiction; cbn [encField dvOk] in *; cbn [decField].
  - injection E as <-. rewrite parseTLV_tlv; [|reflexivity|pose proof (intBytes_len z ltac:(lia)); lia]. cbn [rbind].
    rewrite parseInt64_bytes by lia. cbn [rbind]. destruct (Z.ltb_spec z (-2147483648)); [lia|]. destruct (Z.ltb_spec 2147483647 z); [lia|reflexivity].
  - injection E as <-. rewrite parseTLV_tlv; [|reflexivity|pose proof (intBytes_len z ltac:(lia)); lia]. cbn [rbind].
    rewrite parseInt64_bytes by lia. reflexivity.
  - injection E as <-. rewrite parseTLV_tlv; [|reflexivity|change (lenN [if b then 255 else 0]) with 1; lia]. cbn [rbind]. destruct b; reflexivity.
  - injection E as <-. rewrite parseTLV_tlv; [reflexivity|reflexivity|exact O].
  - destruct (forallb isPrintable s) eqn:P; [|destruct (utf8ok s) eqn:U8; [|discriminate]]; injection E as <-; rewrite parseTLV_tlv; try reflexivity; try exact O; cbn [rbind].
    + change (19 =? 19) with true. cbn iota. rewrite (proj2 (forallb_forall _ _)); [reflexivity|]. intros x I. rewrite forallb_forall in P. rewrite (P x I). reflexivity.
    + change (12 =? 19) with false. cbn iota. rewrite U8. reflexivity.
Qed.
Lemma decFields_enc ts l : Forall2 dvOk ts l -> forall e r, encFields l = Some e -> decFields ts (e ++ r) = Ok l.
Proof.
  induction 1 as [|t v ts l O F IH]; intros e r E; cbn [encFields decFields] in *; [reflexivity|].
  destruct (encField v) as [a|] eqn:Ea; [|discriminate]. destruct (encFields l) as [b|]; [|discriminate]. injection E as <-.
  rewrite <- app_assoc, (decField_enc t v a _ O Ea). cbn [rbind]. rewrite (IH b r eq_refl). reflexivity.
Qed.
Lemma derUnmarshal_marshal ts l e r : Forall2 dvOk ts l -> derMarshal l = Some e -> lenN e < 2 ^ 31 -> derUnmarshal ts (e ++ r) = Ok l.
Proof.
  intros F E L. unfold derMarshal in E. destruct (encFields l) as [b|] eqn:EF; [|discriminate]. injection E as <-.
  unfold derUnmarshal. rewrite parseTLV_tlv; [|reflexivity|].
  - cbn [rbind]. rewrite <- (app_nil_r b). apply (decFields_enc ts l F b [] EF).
  - unfold tlv in L. rewrite lenN_cons, lenN_app in L. lia.
Qed.
(* no panics *)
Lemma lenLoop_np k : forall acc s, lenLoop k acc s <> Panic.
Proof. induction k as [|k IH]; intros acc s; cbn [lenLoop]; [discriminate|]. destruct s; [discriminate|]. destruct (_ <=? _); [discriminate|]. cbv zeta. destruct (_ =? _); [discriminate|apply IH]. Qed.
Lemma rbind_np {A B} (m : res A) (f : A -> res B) : m <> Panic -> (forall x, m = Ok x -> f x <> Panic) -> rbind m f <> Panic.
Proof. destruct m; cbn [rbind]; auto; discriminate. Qed.
Lemma parseTLV_np tags s : parseTLV tags s <> Panic.
Proof.
  unfold parseTLV. destruct s as [|t r]; [discriminate|]. destruct (existsb _ _); [|discriminate]. apply rbind_np.
  - unfold parseLen. destruct r as [|b r]; [discriminate|]. destruct (b <? 128); [discriminate|]. destruct (b =? 128); [discriminate|].
    apply rbind_np; [apply lenLoop_np|]. intros [n r'] _. destruct (n <? 128); discriminate.
  - intros [n r'] _. destruct (_ <? _); discriminate.
Qed.
Lemma parseInt64_np b : parseInt64 b <> Panic.
Proof. unfold parseInt64. destruct b as [|x r]; [discriminate|]. destruct (match r with [] => _ | _ => _ end); [discriminate|]. destruct (_ <? _); discriminate. Qed.
Lemma decField_np t s : decField t s <> Panic.
Proof.
  destruct t; cbn [decField]; apply rbind_np; try apply parseTLV_np; intros [[tag b] r] _; try discriminate.
  - apply rbind_np; [apply parseInt64_np|]. intros z _. destruct (_ || _); discriminate.
  - apply rbind_np; [apply parseInt64_np|discriminate].
  - destruct b as [|x [|]]; try discriminate. destruct (_ =? _); [discriminate|]. destruct (_ =? _); discriminate.
  - destruct (_ =? _); [destruct (forallb _ _)|destruct (utf8ok _)]; discriminate.
Qed.
Lemma decFields_np ts : forall s, decFields ts s <> Panic.
Proof. induction ts as [|t ts IH]; intros s; cbn [decFields]; [discriminate|]. apply rbind_np; [apply decField_np|]. intros [v r] _. apply rbind_np; [apply IH|discriminate]. Qed.
Lemma derUnmarshal_np ts s : derUnmarshal ts s <> Panic.
Proof. unfold derUnmarshal. apply rbind_np; [apply parseTLV_np|]. intros [[? b] ?] _. apply decFields_np. Qed.
