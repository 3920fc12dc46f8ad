From Verif Require Import Base Base64Model.
Local Open Scope N_scope.

Lemma b64val_char n : n < 64 -> b64val (b64char n) = Some n.
Proof.
  intros H. unfold b64char.
  destruct (N.ltb_spec n 26); [|destruct (N.ltb_spec n 52); [|destruct (N.ltb_spec n 62); [|destruct (N.eqb_spec n 62)]]];
    unfold b64val.
  - destruct ((65 <=? 65 + n) && (65 + n <=? 90)) eqn:E; [f_equal; lia | lia].
  - destruct ((65 <=? 97 + (n - 26)) && (97 + (n - 26) <=? 90)) eqn:E; [lia|].
    destruct ((97 <=? 97 + (n - 26)) && (97 + (n - 26) <=? 122)) eqn:E2; [f_equal; lia|lia].
  - destruct ((65 <=? 48 + (n - 52)) && (48 + (n - 52) <=? 90)) eqn:E; [lia|].
    destruct ((97 <=? 48 + (n - 52)) && (48 + (n - 52) <=? 122)) eqn:E2; [lia|].
    destruct ((48 <=? 48 + (n - 52)) && (48 + (n - 52) <=? 57)) eqn:E3; [f_equal; lia|lia].
  - subst; reflexivity.
  - assert (n = 63) by lia; subst; reflexivity.
Qed.

Lemma b64char_cases n : 65 <= b64char n <= 90 \/ 97 <= b64char n <= 122
   \/ 48 <= b64char n <= 57 \/ b64char n = 43 \/ b64char n = 47.
Proof.
  unfold b64char.
  destruct (N.ltb_spec n 26); [|destruct (N.ltb_spec n 52); [|destruct (N.ltb_spec n 62); [|destruct (N.eqb_spec n 62)]]]; lia.
Qed.
Lemma b64char_not_pad n : (b64char n =? padchar) = false.
Proof. pose proof (b64char_cases n). unfold padchar. lia. Qed.
Lemma b64char_not_nl n : is_nl (b64char n) = false.
Proof. pose proof (b64char_cases n). unfold is_nl. lia. Qed.

(* strong induction in steps of three *)
Lemma list_ind3 {A} (P : list A -> Prop) :
  P [] -> (forall x, P [x]) -> (forall x y, P [x; y]) ->
  (forall x y z l, P l -> P (x :: y :: z :: l)) -> forall l, P l.
Proof.
  intros H0 H1 H2 H3.
  fix IH 1. intros [|x [|y [|z l]]]; [exact H0|apply H1|apply H2|apply H3; apply IH].
Qed.

Lemma b64enc_no_nl b : forallb (fun c => negb (is_nl c)) (b64enc b) = true.
Proof.
  induction b as [|x|x y|x y z b IH] using list_ind3; cbn [b64enc forallb];
    rewrite ?b64char_not_nl; cbn [negb andb]; try reflexivity. exact IH.
Qed.

Lemma filter_id {A} (f : A -> bool) l : forallb f l = true -> filter f l = l.
Proof.
  induction l as [|x l IH]; cbn [forallb filter]; [reflexivity|].
  intros H. apply andb_true_iff in H as [-> H]. now rewrite IH.
Qed.

Lemma b64dec_clean_enc b : wfb b -> b64dec_clean (b64enc b) = Some b.
Proof.
  induction b as [|x|x y|x y z b IH] using list_ind3; intros H.
  - reflexivity.
  - inversion H; subst. cbn [b64enc b64dec_clean].
    rewrite !b64val_char by lia. cbn [N.eqb]. rewrite !N.eqb_refl. cbn [andb]. do 2 f_equal. lia.
  - inversion H as [|? ? Hx H']; subst. inversion H' as [|? ? Hy H'']; subst. cbn [b64enc b64dec_clean].
    rewrite !b64val_char by lia. rewrite b64char_not_pad, N.eqb_refl.
    f_equal. f_equal; [lia|]. f_equal. lia.
  - inversion H as [|? ? Hx H']; subst. inversion H' as [|? ? Hy H'']; subst.
    inversion H'' as [|? ? Hz H''']; subst. cbn [b64enc b64dec_clean].
    rewrite !b64val_char by lia. rewrite !b64char_not_pad. rewrite IH by assumption.
    f_equal. f_equal; [lia|]. f_equal; [lia|]. f_equal. lia.
Qed.

Lemma b64dec_enc b : wfb b -> b64dec (b64enc b) = Some b.
Proof.
  intros H. unfold b64dec, strip_nl. rewrite filter_id by apply b64enc_no_nl.
  apply b64dec_clean_enc; exact H.
Qed.

(* Line breaks inserted anywhere do not matter. *)
Lemma b64dec_with_breaks b s : wfb b -> strip_nl s = b64enc b -> b64dec s = Some b.
Proof. intros H E. unfold b64dec. rewrite E. apply b64dec_clean_enc; exact H. Qed.

Lemma lenN_b64enc b : lenN (b64enc b) = 4 * ((lenN b + 2) / 3).
Proof.
  induction b as [|x|x y|x y z b IH] using list_ind3; cbn [b64enc]; rewrite ?lenN_cons, ?lenN_nil; try reflexivity.
  rewrite IH.
  replace (1 + (1 + (1 + lenN b)) + 2) with (lenN b + 2 + 1 * 3) by lia.
  rewrite N.div_add by lia. lia.
Qed.

Lemma b64char_bound n : b64char n < 256.
Proof. pose proof (b64char_cases n). lia. Qed.
Lemma wfb_b64enc b : wfb (b64enc b).
Proof.
  induction b as [|x|x y|x y z b IH] using list_ind3; cbn [b64enc];
    repeat (constructor; [try apply b64char_bound; unfold padchar; lia|]); try constructor. exact IH.
Qed.
Lemma b64enc_inj a b : wfb a -> wfb b -> b64enc a = b64enc b -> a = b.
Proof.
  intros Ha Hb E. assert (Some a = Some b) as X by (rewrite <- !b64dec_enc by assumption; now rewrite E).
  now inversion X.
Qed.

(* Every decoded string consists of bytes. *)
Lemma b64val_bound c v : b64val c = Some v -> v < 64.
Proof.
  unfold b64val.
  destruct ((65 <=? c) && (c <=? 90)) eqn:E1; [intros X; inversion X; lia|].
  destruct ((97 <=? c) && (c <=? 122)) eqn:E2; [intros X; inversion X; lia|].
  destruct ((48 <=? c) && (c <=? 57)) eqn:E3; [intros X; inversion X; lia|].
  destruct (c =? 43); [intros X; inversion X; lia|].
  destruct (c =? 47); [intros X; inversion X; lia|discriminate].
Qed.

Lemma list_ind4 {A} (P : list A -> Prop) :
  P [] -> (forall x, P [x]) -> (forall x y, P [x; y]) -> (forall x y z, P [x; y; z]) ->
  (forall x y z w l, P l -> P (x :: y :: z :: w :: l)) -> forall l, P l.
Proof.
  intros H0 H1 H2 H3 H4.
  fix IH 1. intros [|x [|y [|z [|w l]]]]; [exact H0|apply H1|apply H2|apply H3|apply H4; apply IH].
Qed.

Lemma wfb_b64dec_clean s b : b64dec_clean s = Some b -> wfb b.
Proof.
  revert b; induction s as [|x|x y|x y z|c0 c1 c2 c3 s IH] using list_ind4; intros b; cbn [b64dec_clean];
    try discriminate; [intros X; inversion X; constructor|].
  destruct (b64val c0) as [v0|] eqn:E0; [|discriminate].
  destruct (b64val c1) as [v1|] eqn:E1; [|discriminate].
  apply b64val_bound in E0, E1.
  destruct (c2 =? padchar).
  { destruct ((c3 =? padchar) && _); [|discriminate]. intros X; inversion X; subst.
    constructor; [lia|constructor]. }
  destruct (b64val c2) as [v2|] eqn:E2; [|discriminate]. apply b64val_bound in E2.
  destruct (c3 =? padchar).
  { destruct s; [|discriminate]. intros X; inversion X; subst.
    constructor; [lia|constructor; [lia|constructor]]. }
  destruct (b64val c3) as [v3|] eqn:E3; [|discriminate]. apply b64val_bound in E3.
  destruct (b64dec_clean s) as [t|]; [|discriminate].
  intros X; inversion X; subst.
  constructor; [lia|constructor; [lia|constructor; [lia|]]]. apply IH; reflexivity.
Qed.
Lemma wfb_b64dec s b : b64dec s = Some b -> wfb b.
Proof. apply wfb_b64dec_clean. Qed.

(* ------------------------------------------------------------------ *)
Lemma hexval_char n : n < 16 -> hexval (hexchar n) = Some n.
Proof.
  intros H. unfold hexchar. destruct (N.ltb_spec n 10); unfold hexval.
  - destruct ((48 <=? 48 + n) && (48 + n <=? 57)) eqn:E; [f_equal; lia|lia].
  - destruct ((48 <=? 97 + (n - 10)) && (97 + (n - 10) <=? 57)) eqn:E; [lia|].
    destruct ((97 <=? 97 + (n - 10)) && (97 + (n - 10) <=? 102)) eqn:E2; [f_equal; lia|lia].
Qed.
Lemma hexdec_enc b : wfb b -> hexdec (hexenc b) = Some b.
Proof.
  induction b as [|x b IH]; intros H; [reflexivity|]. inversion H; subst.
  cbn [hexenc hexdec]. rewrite !hexval_char by lia. rewrite IH by assumption. do 2 f_equal. lia.
Qed.
Lemma lenN_hexenc b : lenN (hexenc b) = 2 * lenN b.
Proof. induction b as [|x b IH]; cbn [hexenc]; rewrite ?lenN_cons, ?lenN_nil; [reflexivity|]. rewrite IH; lia. Qed.
Lemma hexchar_cases n : n < 16 -> 48 <= hexchar n <= 57 \/ 97 <= hexchar n <= 102.
Proof. intros H. unfold hexchar. destruct (N.ltb_spec n 10); lia. Qed.

(* ------------------------------------------------------------------ *)
Lemma toByte8_le u : toByte8 u = le 8 u.
Proof.
  unfold toByte8, le. rewrite !N.div_div by lia.
  change (256 * 256) with (2^16). change (2^16 * 256) with (2^24). change (2^24 * 256) with (2^32).
  change (2^32 * 256) with (2^40). change (2^40 * 256) with (2^48). change (2^48 * 256) with (2^56).
  reflexivity.
Qed.
Lemma toByte2_le u : toByte2 u = le 2 u.
Proof. reflexivity. Qed.
Lemma toUint64_le b u : toUint64 b = Ok u -> List.length b = 8%nat /\ u = le_dec b.
Proof.
  unfold toUint64.
  destruct b as [|b0 [|b1 [|b2 [|b3 [|b4 [|b5 [|b6 [|b7 [|]]]]]]]]]; try discriminate.
  intros E; inversion E; split; [reflexivity|]. cbn [le_dec]. lia.
Qed.
Lemma toUint64_le_dec b : List.length b = 8%nat -> toUint64 b = Ok (le_dec b).
Proof.
  destruct b as [|b0 [|b1 [|b2 [|b3 [|b4 [|b5 [|b6 [|b7 [|]]]]]]]]]; try discriminate.
  intros _. unfold toUint64, le_dec. f_equal. lia.
Qed.
Lemma toUint16_le b u : toUint16 b = Ok u -> List.length b = 2%nat /\ u = le_dec b.
Proof.
  unfold toUint16.
  destruct b as [|b0 [|b1 [|]]]; try discriminate.
  intros E; inversion E; split; [reflexivity|]. cbn [le_dec]. lia.
Qed.
Lemma le_dec_bound b : wfb b -> le_dec b < 256 ^ lenN b.
Proof.
  induction b as [|x b IH]; intros H; [reflexivity|]. inversion H; subst.
  specialize (IH ltac:(assumption)). cbn [le_dec]. rewrite lenN_cons, N.pow_add_r.
  change (256 ^ 1) with 256. lia.
Qed.
Lemma toUint64_toByte8 u : u < 2 ^ 64 -> toUint64 (toByte8 u) = Ok u.
Proof.
  intros H. rewrite toByte8_le, toUint64_le_dec by reflexivity. f_equal.
  rewrite le_dec_le. apply N.mod_small. exact H.
Qed.
Lemma toUint16_toByte2 u : u < 2 ^ 16 -> toUint16 (toByte2 u) = Ok u.
Proof.
  intros H. unfold toUint16, toByte2. f_equal. change (2^8) with 256. change (2^16) with 65536 in H. lia.
Qed.
Lemma toByte8_toUint64 b u : wfb b -> toUint64 b = Ok u -> toByte8 u = b /\ u < 2 ^ 64.
Proof.
  intros W E. apply toUint64_le in E as [L ->]. rewrite toByte8_le, <- L.
  split; [apply le_le_dec; exact W|].
  apply le_dec_bound in W. unfold lenN in W. rewrite L in W. exact W.
Qed.
Lemma toByte2_toUint16 b u : wfb b -> toUint16 b = Ok u -> toByte2 u = b /\ u < 2 ^ 16.
Proof.
  intros W E. apply toUint16_le in E as [L ->]. rewrite toByte2_le, <- L.
  split; [apply le_le_dec; exact W|].
  apply le_dec_bound in W. unfold lenN in W. rewrite L in W. exact W.
Qed.
Lemma toUint64_total b : lenN b <> 8 -> toUint64 b = Panic.
Proof.
  intros H. destruct b as [|b0 [|b1 [|b2 [|b3 [|b4 [|b5 [|b6 [|b7 [|]]]]]]]]]; try reflexivity.
  exfalso. apply H. reflexivity.
Qed.
Lemma toUint16_total b : lenN b <> 2 -> toUint16 b = Panic.
Proof.
  intros H. destruct b as [|b0 [|b1 [|]]]; try reflexivity. exfalso; apply H; reflexivity.
Qed.
