(* C206: a user without tokens is told the public key of the wallet. *)
From Verif Require Import Base Base64Model Base64Proofs PrepareModel NoTokensModel.
Local Open Scope N_scope.

(* The specification: the text for a key. *)
Definition told (key : list N) : list N :=
  str "Unfortunately, you do not have tokens, yet!" ++ 10 :: str "Please send your " ++ 10 :: str "WALLETPUBKEY" ++ 9 :: key ++ 10 :: str "per email to frank@cryptogroup.net and stay tuned!".

Lemma enc_inj a b : wfb a -> wfb b -> b64enc a = b64enc b -> a = b.
Proof. intros A B E. apply (f_equal b64dec) in E. rewrite (b64dec_enc a A), (b64dec_enc b B) in E. injection E as E. exact E. Qed.
Lemma wfb_take n l : wfb l -> wfb (takeN n l).
Proof. intros W. rewrite <- (takeN_dropN n l) in W. apply Forall_app in W. apply W. Qed.
Lemma wfb_drop n l : wfb l -> wfb (dropN n l).
Proof. intros W. rewrite <- (takeN_dropN n l) in W. apply Forall_app in W. apply W. Qed.

(* the public key used always has 32 bytes *)
Lemma used d : wfb d -> exists k, publicUsed (b64enc d) = Ok k /\ lenN k = 32 /\ wfb k /\ (lenN d = 64 -> k = dropN 32 d).
Proof.
  intros W. unfold publicUsed, decodeWalletKey. rewrite (b64dec_enc d W). eexists. split; [reflexivity|]. unfold walletPublic.
  assert (LR : lenN (repeat 0 64) = 64) by reflexivity.
  split; [rewrite lenN_takeN, lenN_dropN, lenN_takeN, lenN_app, LR; lia|]. split.
  - apply wfb_take, wfb_drop, wfb_take. apply Forall_app. split; [exact W|]. apply Forall_forall. intros x H. apply repeat_spec in H. subst x. reflexivity.
  - intros L. rewrite takeN_app by exact L. rewrite <- (app_nil_r (dropN 32 d)) at 1. apply takeN_app. rewrite lenN_dropN. lia.
Qed.
(* The key that is told is the one by which the wallet server knows the user exactly if the private key has 64 bytes.  The full statement
   of C206 is: any key stored.  It is refuted below. *)
Theorem C206_partial : forall d, wfb d ->
  (exists k, publicUsed (b64enc d) = Ok k /\ translateError (Some (b64enc d)) ENoUser = Ok (told (b64enc k))) <-> lenN d = 64.
Proof.
  intros d W. destruct (used d W) as (k & U & LK & WK & E). unfold translateError. rewrite (b64dec_enc d W). split.
  - intros (k' & U' & T). rewrite U in U'. injection U' as <-. destruct (lenN d <? 32) eqn:L; [discriminate T|]. injection T as T. apply app_inv_tail in T.
    apply enc_inj in T; [|apply wfb_drop, W|exact WK]. apply (f_equal (@lenN N)) in T. rewrite lenN_dropN, LK in T. lia.
  - intros L. exists k. split; [exact U|]. rewrite L. rewrite (E L). reflexivity.
Qed.
(* Other errors are passed on as they are. *)
Theorem C206_other : forall stored t, translateError stored (EOther t) = Ok t.
Proof. reflexivity. Qed.
(* When the database fails, or the key is no base64, the text has no key; the program crashes exactly if the key has less than 32 bytes. *)
Theorem C206_crash : forall stored e, translateError stored e = Panic <-> e = ENoUser /\ exists p d, stored = Some p /\ b64dec p = Some d /\ lenN d < 32.
Proof.
  intros stored e. destruct e as [|t]; cbn [translateError]; [|split; [discriminate|intros [H _]; discriminate H]].
  destruct stored as [p|]; [|split; [discriminate|intros (_ & p & d & H & _); discriminate H]].
  destruct (b64dec p) as [d|] eqn:B; [|split; [discriminate|intros (_ & q & d & H & D & _); injection H as <-; rewrite B in D; discriminate D]].
  destruct (lenN d <? 32) eqn:L; [apply N.ltb_lt in L|apply N.ltb_ge in L]; split; try discriminate.
  - intros _. split; [reflexivity|]. exists p, d. auto.
  - reflexivity.
  - intros (_ & q & d' & H & D & K). injection H as <-. rewrite B in D. injection D as <-. lia.
Qed.
Theorem C206_nokey : forall stored, (forall p, stored = Some p -> b64dec p = None) -> translateError stored ENoUser = Ok (told []).
Proof. intros [p|] H; [|reflexivity]. cbn [translateError]. rewrite (H p eq_refl). reflexivity. Qed.
(* The statement of C206 fails: a key given to db create with --walletkey that has 65 bytes is used without its last byte, but the public
   key that is told has it. *)
Theorem C206_refuted : exists d k k', wfb d /\ publicUsed (b64enc d) = Ok k /\ translateError (Some (b64enc d)) ENoUser = Ok (told (b64enc k')) /\ k' <> k.
Proof.
  exists (repeat 7 65), (repeat 7 32), (repeat 7 33). split; [apply Forall_forall; intros x H; apply repeat_spec in H; subst x; reflexivity|].
  split; [vm_compute; reflexivity|]. split; [vm_compute; reflexivity|]. intros H. discriminate H.
Qed.
(* Without a key stored the program crashes. *)
Theorem C206_empty_refuted : translateError (Some []) ENoUser = Panic.
Proof. vm_compute. reflexivity. Qed.
Example C206_ex : let d := map N.of_nat (seq 0 64) in lenN d = 64 /\ publicUsed (b64enc d) = Ok (map N.of_nat (seq 32 32)) /\
  translateError (Some (b64enc d)) ENoUser = Ok (told (b64enc (map N.of_nat (seq 32 32)))) /\ b64dec (str "!") = None.
Proof. vm_compute. auto. Qed.

Print Assumptions C206_partial.
Print Assumptions C206_other.
Print Assumptions C206_crash.
Print Assumptions C206_nokey.
Print Assumptions C206_refuted.
Print Assumptions C206_empty_refuted.
