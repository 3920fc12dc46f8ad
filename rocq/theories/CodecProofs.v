From Verif Require Import Base Base64Model Base64Proofs CodecModel.
Local Open Scope N_scope.

(* ---------------------------- digits ------------------------------ *)
Lemma pow10_S k : 10 ^ N.of_nat (S k) = 10 * 10 ^ N.of_nat k.
Proof. rewrite Nat2N.inj_succ, N.pow_succ_r'. reflexivity. Qed.

Lemma dec_rev_length k : forall u f, u < 10 ^ N.of_nat (S k) ->
  (k = 0%nat \/ 10 ^ N.of_nat k <= u) -> (S k <= f)%nat ->
  List.length (dec_rev f u) = S k.
Proof.
  induction k as [|k IH]; intros u f Hu Hl Hf; destruct f as [|f]; try lia; cbn [dec_rev].
  - change (10 ^ N.of_nat 1) with 10 in Hu. destruct (N.ltb_spec u 10); [reflexivity|lia].
  - destruct Hl as [Hl|Hl]; [discriminate|]. rewrite pow10_S in Hl, Hu.
    pose proof (N.pow_nonzero 10 (N.of_nat k) ltac:(lia)).
    destruct (N.ltb_spec u 10); [lia|]. cbn [List.length]. f_equal. apply IH.
    + apply N.div_lt_upper_bound; lia.
    + destruct k; [left; reflexivity|right]. apply N.div_le_lower_bound; lia.
    + lia.
Qed.

Lemma decimal_length k u : u < 10 ^ N.of_nat (S k) ->
  (k = 0%nat \/ 10 ^ N.of_nat k <= u) -> lenN (decimal u) = N.of_nat (S k).
Proof.
  intros Hu Hl. unfold decimal, lenN. rewrite rev_length. f_equal. apply dec_rev_length; auto.
  destruct Hl as [->|Hl]; [lia|].
  assert (2 ^ N.of_nat k <= u) as H2.
  { etransitivity; [|exact Hl]. apply N.pow_le_mono_l. lia. }
  apply N.log2_le_pow2 in H2; [lia|]. pose proof (N.pow_nonzero 2 (N.of_nat k)). lia.
Qed.

Lemma digitsCount_decimal u : u < 2 ^ 64 -> digitsCount u = lenN (decimal u).
Proof.
  intros H. change (2^64) with 18446744073709551616 in H. symmetry.
  unfold digitsCount.
  repeat match goal with |- context [if ?a <? ?b then _ else _] => destruct (N.ltb_spec a b) end;
  [apply (decimal_length 0)|apply (decimal_length 1)|apply (decimal_length 2)|apply (decimal_length 3)
  |apply (decimal_length 4)|apply (decimal_length 5)|apply (decimal_length 6)|apply (decimal_length 7)
  |apply (decimal_length 8)|apply (decimal_length 9)|apply (decimal_length 10)|apply (decimal_length 11)
  |apply (decimal_length 12)|apply (decimal_length 13)|apply (decimal_length 14)|apply (decimal_length 15)
  |apply (decimal_length 16)|apply (decimal_length 17)|apply (decimal_length 18)|apply (decimal_length 19)];
  first [now left | right; assumption | assumption | idtac];
  match goal with |- _ < 10 ^ ?e => let v := eval vm_compute in (10 ^ e) in change (10 ^ e) with v; lia end.
Qed.

Lemma fold_dec_step_app a b acc : fold_left dec_step (a ++ b) acc = fold_left dec_step b (fold_left dec_step a acc).
Proof. apply fold_left_app. Qed.

Lemma dec_rev_value f : forall u, u < 2 ^ 64 -> u < 2 ^ N.of_nat f ->
  fold_left dec_step (rev (dec_rev f u)) (Some 0) = Some u.
Proof.
  induction f as [|f IH]; intros u H64 H; cbn [dec_rev rev fold_left].
  - change (2 ^ N.of_nat 0) with 1 in H. f_equal; lia.
  - change (2 ^ 64) with 18446744073709551616 in *.
    destruct (N.ltb_spec u 10) as [L|L].
    + cbn [rev app fold_left dec_step].
      destruct ((48 <=? 48 + u) && (48 + u <=? 57)) eqn:E; [|lia].
      replace (10 * 0 + (48 + u - 48)) with u by lia.
      change (2 ^ 64) with 18446744073709551616.
      destruct (N.ltb_spec u 18446744073709551616); [reflexivity|lia].
    + cbn [rev]. rewrite fold_dec_step_app. rewrite IH.
      * cbn [fold_left dec_step].
        destruct ((48 <=? 48 + u mod 10) && (48 + u mod 10 <=? 57)) eqn:E; [|lia].
        replace (10 * (u / 10) + (48 + u mod 10 - 48)) with u by lia.
        change (2 ^ 64) with 18446744073709551616.
        destruct (N.ltb_spec u 18446744073709551616); [reflexivity|lia].
      * lia.
      * rewrite Nat2N.inj_succ, N.pow_succ_r' in H. apply N.div_lt_upper_bound; lia.
Qed.

Lemma parse_dec_decimal u : u < 2 ^ 64 -> parse_dec (decimal u) = Some u.
Proof.
  intros H.
  assert (fold_left dec_step (decimal u) (Some 0) = Some u) as E.
  { apply dec_rev_value; [exact H|]. rewrite Nat2N.inj_succ, N2Nat.id.
    destruct (N.eq_dec u 0) as [->|Hn]; [reflexivity|]. apply N.log2_spec. lia. }
  unfold parse_dec. destruct (decimal u) eqn:D; [|exact E].
  cbn in E. unfold decimal in D. cbn [dec_rev] in D.
  destruct (u <? 10); [discriminate|].
  apply (f_equal (@List.length N)) in D. rewrite rev_length in D. discriminate.
Qed.

(* ---------------------------- padding ----------------------------- *)
Lemma paddingGenerate_length ctr length rand p :
  paddingGenerate ctr length rand = Ok p -> Z.of_N (lenN p) = length.
Proof.
  unfold paddingGenerate. destruct (Z.leb_spec length 32).
  - destruct (Z.ltb_spec length 0); [discriminate|].
    destruct (read_full (Z.to_N length) rand) as [[q r]|] eqn:E; [|discriminate].
    intros X; inversion X; subst. apply read_full_inv in E as [_ E]. lia.
  - destruct (read_full 32 rand) as [[key r]|]; [|discriminate].
    destruct (N.leb_spec (Z.to_N length) (lenN (ctr key ((1 + Z.to_N length / 16) * 16)))); [|discriminate].
    intros X; inversion X; subst. rewrite lenN_takeN. lia.
Qed.

(* With a key stream of the requested length and enough randomness it succeeds. *)
Lemma paddingGenerate_succeeds ctr length rand :
  (forall k n, lenN (ctr k n) = n) -> (0 <= length)%Z -> 32 <= lenN rand ->
  exists p, paddingGenerate ctr length rand = Ok p.
Proof.
  intros Hc Hl Hr. unfold paddingGenerate. destruct (Z.leb_spec length 32).
  - destruct (Z.ltb_spec length 0); [lia|].
    destruct (read_full (Z.to_N length) rand) as [[q r]|] eqn:E; [eauto|].
    exfalso. unfold read_full in E. destruct (N.ltb_spec (lenN rand) (Z.to_N length)); [lia|discriminate].
  - destruct (read_full 32 rand) as [[key r]|] eqn:E.
    + destruct (N.leb_spec (Z.to_N length) (lenN (ctr key ((1 + Z.to_N length / 16) * 16)))) as [L|L]; [eauto|].
      exfalso. rewrite Hc in L. lia.
    + exfalso. unfold read_full in E. destruct (N.ltb_spec (lenN rand) 32); [lia|discriminate].
Qed.

(* ---------------------------- lines ------------------------------- *)
Definition no_nl (s : bytes) : Prop := forallb (fun c => negb (is_nl c)) s = true.

Lemma forallb_takeN {A} (f : A -> bool) n l : forallb f l = true -> forallb f (takeN n l) = true.
Proof.
  intros H. rewrite forallb_forall in *. intros x Hx. apply H.
  rewrite <- (takeN_dropN n l). apply in_or_app; now left.
Qed.
Lemma forallb_dropN {A} (f : A -> bool) n l : forallb f l = true -> forallb f (dropN n l) = true.
Proof.
  intros H. rewrite forallb_forall in *. intros x Hx. apply H.
  rewrite <- (takeN_dropN n l). apply in_or_app; now right.
Qed.

Lemma splitLoop_spec f : forall width s, 0 < width -> (List.length s <= f)%nat ->
  concat (splitLoop f width s) = s /\
  Forall (fun l => 0 < lenN l <= width) (splitLoop f width s) /\
  (no_nl s -> Forall no_nl (splitLoop f width s)).
Proof.
  induction f as [|f IH]; intros width s Hw Hf; cbn [splitLoop].
  - destruct s; [|cbn in Hf; lia]. repeat split; constructor.
  - destruct (N.eqb_spec (lenN s) 0) as [E|E].
    { apply lenN_0 in E; subst. repeat split; constructor. }
    destruct (N.leb_spec (lenN s) width) as [L|L].
    { cbn. rewrite app_nil_r. repeat split; [constructor; [lia|constructor]|].
      intros; constructor; [assumption|constructor]. }
    destruct (IH width (dropN width s) Hw) as (A & B & C).
    { pose proof (lenN_dropN width s) as D. unfold lenN in *. lia. }
    cbn [concat]. rewrite A, takeN_dropN. split; [reflexivity|]. split.
    + constructor; [rewrite lenN_takeN; lia|exact B].
    + intros Hs. constructor; [apply forallb_takeN; exact Hs|]. apply C. apply forallb_dropN; exact Hs.
Qed.

Lemma splitLoop_length f : forall width s, 0 < width -> (List.length s <= f)%nat ->
  lenN (splitLoop f width s) = (lenN s + width - 1) / width.
Proof.
  induction f as [|f IH]; intros width s Hw Hf; cbn [splitLoop].
  - destruct s; [|cbn in Hf; lia]. lenN_simp. symmetry. apply N.div_small. lia.
  - destruct (N.eqb_spec (lenN s) 0) as [E|E].
    { rewrite E, lenN_nil. symmetry. apply N.div_small. lia. }
    destruct (N.leb_spec (lenN s) width) as [L|L].
    { rewrite lenN_cons, lenN_nil. change (1 + 0) with 1. apply N.div_unique with (r := lenN s - 1); [lia|]. rewrite N.mul_1_r. lia. }
    rewrite lenN_cons, IH; [|assumption|].
    + rewrite lenN_dropN.
      replace (lenN s + width - 1) with (lenN s - width + width - 1 + 1 * width) by lia.
      rewrite N.div_add by lia. lia.
    + pose proof (lenN_dropN width s) as D. unfold lenN in *. lia.
Qed.

Lemma strip_nl_app a b : strip_nl (a ++ b) = strip_nl a ++ strip_nl b.
Proof. apply filter_app. Qed.
Lemma strip_nl_join l : strip_nl (join CRLF l) = strip_nl (concat l).
Proof.
  induction l as [|x [|y l] IH]; [reflexivity|cbn; now rewrite app_nil_r|].
  change (join CRLF (x :: y :: l)) with (x ++ CRLF ++ join CRLF (y :: l)).
  change (concat (x :: y :: l)) with (x ++ concat (y :: l)).
  rewrite !strip_nl_app, IH. reflexivity.
Qed.
Lemma lenN_join l : lenN (join CRLF l) = lenN (concat l) + 2 * (lenN l - 1).
Proof.
  induction l as [|x [|y l] IH]; [reflexivity|cbn [join concat]; rewrite app_nil_r, lenN_cons, lenN_nil; lia|].
  change (join CRLF (x :: y :: l)) with (x ++ CRLF ++ join CRLF (y :: l)).
  change (concat (x :: y :: l)) with (x ++ concat (y :: l)).
  rewrite !lenN_app, IH, !lenN_cons. change (lenN CRLF) with 2. lia.
Qed.

Lemma splitMaxLine_strip s width : 0 < width -> no_nl s -> strip_nl (splitMaxLine s width) = s.
Proof.
  intros Hw Hs. unfold splitMaxLine. destruct (lenN s <=? width).
  - apply filter_id; exact Hs.
  - rewrite strip_nl_join.
    destruct (splitLoop_spec (List.length s) width s Hw (Nat.le_refl _)) as (-> & _ & _).
    apply filter_id; exact Hs.
Qed.

Lemma splitMaxLine_lines s width : 0 < width -> no_nl s ->
  exists ls, splitMaxLine s width = join CRLF ls /\ Forall (fun l => lenN l <= width /\ no_nl l) ls.
Proof.
  intros Hw Hs. unfold splitMaxLine. destruct (N.leb_spec (lenN s) width).
  - exists [s]. split; [reflexivity|]. constructor; [split; assumption|constructor].
  - eexists; split; [reflexivity|].
    destruct (splitLoop_spec (List.length s) width s Hw (Nat.le_refl _)) as (_ & B & C).
    specialize (C Hs). rewrite Forall_forall in *. intros l Hl. split; [apply B in Hl; lia|now apply C].
Qed.

Lemma lenN_splitMaxLine s width : 0 < width ->
  lenN (splitMaxLine s width) = lenN s + 2 * ((lenN s - 1) / width).
Proof.
  intros Hw. unfold splitMaxLine. destruct (N.leb_spec (lenN s) width) as [L|L].
  - rewrite (N.div_small (lenN s - 1)) by lia. lia.
  - rewrite lenN_join, splitLoop_length by (auto; lia).
    destruct (splitLoop_spec (List.length s) width s Hw (Nat.le_refl _)) as (-> & _ & _).
    replace (lenN s + width - 1) with (lenN s - 1 + 1 * width) by lia.
    rewrite N.div_add by lia. lia.
Qed.

(* ---------------------------- mail -------------------------------- *)
Definition plain_line (l : bytes) : Prop :=
  no_nl l /\ (exists c l', l = c :: l' /\ is_wsp c = false) /\ (exists i, index_byte 58 (trim l) = Some i).

Lemma cut_nl_line l r : no_nl l -> cut_nl (l ++ 10 :: r) = (l, Some r).
Proof.
  induction l as [|c l IH]; intros H; [reflexivity|].
  cbn [app cut_nl]. unfold no_nl in H. cbn [forallb] in H. apply andb_true_iff in H as [H1 H2].
  unfold is_nl in H1. destruct (N.eqb_spec c 10); [subst; discriminate|].
  rewrite IH by exact H2. reflexivity.
Qed.
Lemma cut_nl_crlf l r : no_nl l -> cut_nl (l ++ CRLF ++ r) = (l ++ [13], Some r).
Proof.
  intros H. change (l ++ CRLF ++ r) with (l ++ [13] ++ 10 :: r). rewrite app_assoc.
  induction l as [|c l IH]; [reflexivity|].
  cbn [app cut_nl]. unfold no_nl in H. cbn [forallb] in H. apply andb_true_iff in H as [H1 H2].
  unfold is_nl in H1. destruct (N.eqb_spec c 10); [subst; discriminate|].
  rewrite IH by exact H2. reflexivity.
Qed.
Lemma chop_cr_snoc l : chop_cr (l ++ [13]) = l.
Proof. unfold chop_cr. rewrite rev_app_distr. cbn. apply rev_involutive. Qed.

Lemma read_header_lines ls : forall f body, Forall plain_line ls -> (List.length ls < f)%nat ->
  exists h, read_header f (concat (map (fun l => l ++ CRLF) ls) ++ CRLF ++ body) = Some (h, body).
Proof.
  induction ls as [|l ls IH]; intros f body H Hf; destruct f as [|f]; try lia.
  - exists []. cbn [map concat read_header].
    rewrite (cut_nl_crlf [] body eq_refl). rewrite (chop_cr_snoc []). reflexivity.
  - inversion H as [|? ? (Hn & (c & l' & -> & Hc) & (i & Hi)) Hls]; subst.
    cbn [map concat]. rewrite <- !app_assoc. cbn [read_header].
    rewrite cut_nl_crlf by exact Hn. rewrite chop_cr_snoc. rewrite Hc, Hi.
    destruct (IH f body Hls) as [h Hh]; [cbn in Hf; lia|]. rewrite Hh. eauto.
Qed.

Lemma index_byte_in c s : In c s -> exists i, index_byte c s = Some i.
Proof.
  induction s as [|x s IH]; cbn [In index_byte]; [tauto|].
  intros [->|H]; [rewrite N.eqb_refl; eauto|].
  destruct (x =? c); [eauto|]. destruct (IH H) as [i ->]; eauto.
Qed.
Lemma trim_left_in c l : is_wsp c = false -> In c l -> In c (trim_left l).
Proof.
  intros Hc. induction l as [|x l IH]; cbn [trim_left]; [tauto|].
  intros [->|H]; [rewrite Hc; now left|]. destruct (is_wsp x); [auto|now right].
Qed.
Lemma trim_in c l : is_wsp c = false -> In c l -> In c (trim l).
Proof.
  intros Hc H. unfold trim. apply -> in_rev. apply trim_left_in; [exact Hc|].
  apply -> in_rev. apply trim_left_in; assumption.
Qed.
Lemma forallb_app_iff {A} (f : A -> bool) a b : forallb f (a ++ b) = true <-> forallb f a = true /\ forallb f b = true.
Proof. rewrite forallb_app. apply andb_true_iff. Qed.

Lemma writeMailHeader_plain sender receiver date :
  no_nl sender -> no_nl receiver -> no_nl date ->
  Forall plain_line (writeMailHeader sender receiver date).
Proof.
  intros Hs Hr Hd. unfold writeMailHeader.
  repeat (apply Forall_cons || apply Forall_nil);
    (split; [unfold no_nl; rewrite ?forallb_app_iff; try split; first [reflexivity | assumption]|split]);
    try (eexists _, _; split; [reflexivity|reflexivity]);
    (apply index_byte_in, trim_in; [reflexivity|]; apply in_or_app || idtac);
    try (left; cbn; tauto); try (cbn; tauto).
Qed.

Lemma lenN_writeMail_header sender receiver date body :
  (List.length (writeMailHeader sender receiver date) < S (List.length (writeMail sender receiver date body)))%nat.
Proof.
  unfold writeMail. rewrite !app_length.
  unfold writeMailHeader. cbn [map concat List.length]. rewrite !app_length. cbn. lia.
Qed.

Definition mailBody (body : bytes) : bytes := splitMaxLine (b64enc body) 72.

Lemma readMail_writeMail sender receiver date body :
  no_nl sender -> no_nl receiver -> no_nl date -> wfb body ->
  readMail (writeMail sender receiver date body)
  = if lenN body <=? 194283 then Ok body else Err "ErrMaxSize".
Proof.
  intros Hs Hr Hd Hb. unfold readMail.
  destruct (read_header_lines (writeMailHeader sender receiver date)
     (S (List.length (writeMail sender receiver date body))) (mailBody body)
     (writeMailHeader_plain _ _ _ Hs Hr Hd) (lenN_writeMail_header _ _ _ _)) as [h Hh].
  unfold mailBody in Hh. fold (writeMail sender receiver date body) in Hh.
  rewrite Hh.
  pose proof (lenN_splitMaxLine (b64enc body) 72 ltac:(lia)) as L.
  rewrite lenN_b64enc in L.
  destruct (N.leb_spec (lenN body) 194283) as [B|B].
  - destruct (N.ltb_spec MaxMessageSize (N.min (lenN (splitMaxLine (b64enc body) 72)) (MaxMessageSize + 1))) as [X|X].
    { exfalso. rewrite L in X. unfold MaxMessageSize in X. lia. }
    rewrite takeN_all; [|unfold MaxMessageSize in *; lia].
    rewrite (b64dec_with_breaks body); [reflexivity|exact Hb|].
    apply splitMaxLine_strip; [lia|apply b64enc_no_nl].
  - destruct (N.ltb_spec MaxMessageSize (N.min (lenN (splitMaxLine (b64enc body) 72)) (MaxMessageSize + 1))) as [X|X]; [reflexivity|].
    exfalso. rewrite L in X. unfold MaxMessageSize in X. lia.
Qed.

(* ---------------------------- chunks ------------------------------ *)
Lemma slice_ok s a b : a <= b -> b <= lenN s -> slice s a b = Ok (takeN (b - a) (dropN a s)).
Proof. intros H1 H2. unfold slice. destruct ((a <=? b) && (b <=? lenN s)) eqn:E; [reflexivity|lia]. Qed.

(* What the property says about a list of chunks, independently of the loop. *)
Fixpoint numbered (i n : N) (mid : bytes) (cs : list chunk) : Prop :=
  match cs with
  | [] => True
  | c :: cs' => piece c = i /\ count c = n /\ chunkid c = mid /\ numbered (i + 1) n mid cs'
  end.
Fixpoint sized (size : N) (cs : list chunk) : Prop :=
  match cs with
  | [] => True
  | [c] => 0 < lenN (part c) <= size
  | c :: cs' => lenN (part c) = size /\ sized size cs'
  end.

Lemma encChunkLoop_spec n : forall i N0 size mid msg,
  0 < size < 2 ^ 64 -> lenN msg < 2 ^ 63 ->
  (n = 0%nat \/ i * size < lenN msg) ->
  lenN msg - i * size <= N.of_nat n * size ->
  N.of_nat n * size < lenN msg - i * size + size ->
  exists cs, encChunkLoop n i N0 size mid msg = Ok cs
    /\ concat (map part cs) = dropN (i * size) msg
    /\ List.length cs = n /\ numbered (i + 1) N0 mid cs /\ sized size cs.
Proof.
  induction n as [|n IH]; intros i N0 size mid msg Hs Hm Hi H1 H2; cbn [encChunkLoop].
  - exists []. cbn. rewrite dropN_all by lia. auto.
  - destruct Hi as [Hi|Hi]; [discriminate|].
    assert (n = 0%nat \/ size <= N.of_nat n * size) as Hn0 by (destruct n; [left; reflexivity|right; lia]).
    assert (i = 0 \/ size <= i * size) as Hi0 by (destruct (N.eq_dec i 0); [left; assumption|right; nia]).
    assert (i < lenN msg) as Hi2 by nia.
    destruct (IH (i + 1) N0 size mid msg Hs Hm) as (cs & E1 & E2 & E3 & E4 & E5).
    { destruct Hn0 as [Hn0|Hn0]; [left; exact Hn0|right]. lia. }
    { rewrite Nat2N.inj_succ in H1. lia. }
    { rewrite Nat2N.inj_succ in H2. destruct Hn0 as [->|Hn0]; lia. }
    change (2^63) with 9223372036854775808 in Hm.
    unfold w64. change (2 ^ 64) with 18446744073709551616 in *.
    rewrite (N.mod_small (i + 1)) by lia. rewrite (N.mod_small (i * size)) by lia.
    rewrite (N.mod_small ((i + 1) * size)) by (destruct Hi0 as [->|?]; lia).
    set (e := if lenN msg <? (i + 1) * size then lenN msg else (i + 1) * size).
    assert (e = N.min (lenN msg) ((i + 1) * size)) as He.
    { unfold e. destruct (N.ltb_spec (lenN msg) ((i + 1) * size)); lia. }
    rewrite slice_ok by lia. cbn [rbind]. rewrite E1. cbn [rbind].
    eexists; split; [reflexivity|]. split; [|split; [|split]].
    + cbn [map concat part]. rewrite E2.
      replace ((i + 1) * size) with (i * size + size) by lia.
      rewrite <- dropN_dropN.
      destruct (N.le_gt_cases (i * size + size) (lenN msg)).
      * replace (e - i * size) with size by lia. apply takeN_dropN.
      * rewrite takeN_all by (rewrite lenN_dropN; lia).
        rewrite (dropN_all (dropN (i * size) msg)) by (rewrite lenN_dropN; lia).
        apply app_nil_r.
    + cbn [List.length]. now rewrite E3.
    + cbn [numbered piece count chunkid]. auto.
    + assert (lenN (takeN (e - i * size) (dropN (i * size) msg)) = e - i * size) as L
        by (rewrite lenN_takeN, lenN_dropN; lia).
      destruct cs as [|c cs].
      * cbn [sized part]. rewrite L. lia.
      * change (lenN (takeN (e - i * size) (dropN (i * size) msg)) = size /\ sized size (c :: cs)).
        split; [|exact E5]. rewrite L. destruct n; [cbn in E3; lia|].
        rewrite !Nat2N.inj_succ in H2. nia.
Qed.

Lemma encodeChunks_spec mid msg size : 0 < size < 2 ^ 64 -> lenN msg < 2 ^ 63 ->
  exists cs, encodeChunks mid msg size = Ok cs
    /\ concat (map part cs) = msg
    /\ numbered 1 (lenN cs) mid cs /\ sized size cs.
Proof.
  intros Hs Hm. unfold encodeChunks. destruct (N.eqb_spec size 0) as [Z0|Z0]; [lia|].
  set (n := if 0 <? lenN msg mod size then lenN msg / size + 1 else lenN msg / size).
  assert (lenN msg <= n * size /\ n * size < lenN msg + size) as [A B].
  { unfold n. pose proof (N.div_mod (lenN msg) size ltac:(lia)) as D.
    pose proof (N.mod_upper_bound (lenN msg) size ltac:(lia)) as U.
    destruct (N.ltb_spec 0 (lenN msg mod size)); lia. }
  destruct (encChunkLoop_spec (N.to_nat n) 0 n size mid msg Hs Hm) as (cs & E1 & E2 & E3 & E4 & E5).
  - destruct (N.eq_dec n 0) as [->|?]; [left; reflexivity|right].
    destruct (N.eq_dec (lenN msg) 0); [|lia].
    exfalso. assert (n < 1); nia.
  - rewrite N2Nat.id. lia.
  - rewrite N2Nat.id. lia.
  - exists cs. split; [exact E1|]. split; [rewrite E2; apply dropN_0|].
    split; [|exact E5]. replace (lenN cs) with n; [exact E4|]. unfold lenN. lia.
Qed.
