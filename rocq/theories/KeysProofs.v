(* Proofs about the store and key derivation. *)
From Verif Require Import Base Base64Model Base64Proofs CodecModel CodecProofs JsonModel JsonProofs Maps CryptoModel StoreModel KeysModel.
Local Open Scope N_scope.

(* ---------------- set_nth ---------------- *)
Lemma set_nth_length i x l : length (set_nth i x l) = length l.
Proof. revert i; induction l as [|y l IH]; intros [|i]; cbn [set_nth length]; auto. Qed.
Lemma set_nth_lenN i x l : lenN (set_nth i x l) = lenN l.
Proof. unfold lenN; now rewrite set_nth_length. Qed.
Lemma nth_set_same i x l : (i < length l)%nat -> nth i (set_nth i x l) [] = x.
Proof.
  revert i; induction l as [|y l IH]; intros [|i] H; cbn [set_nth nth length] in *; try lia; [reflexivity|].
  apply IH. lia.
Qed.
Lemma nth_set_other i j x l : i <> j -> nth i (set_nth j x l) [] = nth i l [].
Proof.
  revert i j; induction l as [|y l IH]; intros [|i] [|j] H; cbn [set_nth nth]; try reflexivity; try congruence.
  apply IH. congruence.
Qed.
Lemma set_nth_nil_nth i x l : (length l <= i)%nat -> set_nth i x l = l.
Proof.
  revert i; induction l as [|y l IH]; intros [|i] H; cbn [set_nth length] in *; try reflexivity; try lia.
  f_equal. apply IH. lia.
Qed.

(* ---------------- identities ---------------- *)
Lemma identityFix_sym C a b : identityFix C a b = identityFix C b a.
Proof.
  unfold identityFix. destruct (bltb a b) eqn:E.
  - rewrite (bltb_asym _ _ E). reflexivity.
  - destruct (bltb b a) eqn:E2; [reflexivity|].
    destruct (bltb_total a b) as [H|[H|H]]; try congruence.
Qed.

(* ---------------- chain ---------------- *)
Fixpoint chainAt (C : Crypto) (root : bytes) (i : nat) : bytes :=
  match i with O => root | S i' => nextChain C (chainAt C root i') end.
Lemma chainAt_S C root i : chainAt C (nextChain C root) i = chainAt C root (S i).
Proof. induction i as [|i IH]; [reflexivity|]. cbn [chainAt] in *. now rewrite IH. Qed.
Lemma chainAt_add C root i j : chainAt C (chainAt C root i) j = chainAt C root (i + j).
Proof. induction j as [|j IH]; [now rewrite Nat.add_0_r|]. rewrite Nat.add_succ_r. cbn [chainAt]. now rewrite IH. Qed.
Lemma nextChain_len C ck : lenN (nextChain C ck) = 32.
Proof. unfold nextChain. rewrite lenN_takeN, hmac512_len. reflexivity. Qed.
Lemma nextChain_wf C ck : wfb (nextChain C ck).
Proof. apply wfb_takeN, hmac512_wf. Qed.
Lemma chainAt_len C root i : lenN root = 32 -> lenN (chainAt C root i) = 32.
Proof. intros H; destruct i; [exact H|]. apply nextChain_len. Qed.
Lemma chainAt_wf C root i : wfb root -> wfb (chainAt C root i).
Proof. intros H; destruct i; [exact H|]. apply nextChain_wf. Qed.

Definition keysFor (C : Crypto) (root pub fix_ : bytes) (n : nat) : list bytes :=
  map (fun i => msgKeyText C (chainAt C root i) pub fix_) (seq 0 n).
Lemma keyLoop_spec C n root r s fix_ :
  keyLoop C n root r s fix_ = (keysFor C root r fix_ n, keysFor C root s fix_ n, chainAt C root n).
Proof.
  unfold keysFor. revert root; induction n as [|n IH]; intros root; [reflexivity|].
  cbn [keyLoop]. rewrite IH. cbn [seq map chainAt]. rewrite <- !seq_shift, !map_map.
  rewrite chainAt_S. cbn [chainAt].
  rewrite (map_ext (fun i => msgKeyText C (chainAt C (nextChain C root) i) r fix_) (fun i => msgKeyText C (chainAt C root (S i)) r fix_))
    by (intros i; now rewrite chainAt_S).
  rewrite (map_ext (fun i => msgKeyText C (chainAt C (nextChain C root) i) s fix_) (fun i => msgKeyText C (chainAt C root (S i)) s fix_))
    by (intros i; now rewrite chainAt_S).
  reflexivity.
Qed.
Lemma keysFor_len C root pub fix_ n : length (keysFor C root pub fix_ n) = n.
Proof. unfold keysFor. now rewrite map_length, seq_length. Qed.
Lemma keysFor_app C root pub fix_ n m :
  keysFor C root pub fix_ (n + m) = keysFor C root pub fix_ n ++ keysFor C (chainAt C root n) pub fix_ m.
Proof.
  unfold keysFor. rewrite seq_app, map_app. f_equal. cbn [plus].
  assert (G : forall k m, map (fun i => msgKeyText C (chainAt C root i) pub fix_) (seq (n + k) m)
     = map (fun i => msgKeyText C (chainAt C (chainAt C root n) i) pub fix_) (seq k m)).
  { intros k m'; revert k; induction m' as [|m' IH]; intros k; [reflexivity|].
    cbn [seq map]. rewrite chainAt_add. f_equal. rewrite <- Nat.add_succ_r. apply IH. }
  rewrite <- (G 0%nat m). now rewrite Nat.add_0_r.
Qed.
Lemma keysFor_nth C root pub fix_ n i : (i < n)%nat ->
  nth i (keysFor C root pub fix_ n) [] = msgKeyText C (chainAt C root i) pub fix_.
Proof.
  intros H. unfold keysFor.
  rewrite (nth_indep _ [] (msgKeyText C (chainAt C root 0) pub fix_)) by (rewrite map_length, seq_length; lia).
  rewrite (map_nth (fun i => msgKeyText C (chainAt C root i) pub fix_)). now rewrite seq_nth by lia.
Qed.
Lemma msgKeyText_dec C ck pub fix_ : b64dec (msgKeyText C ck pub fix_) = Some (hmac512 C ck (str "MESSAGE" ++ sha512 C pub ++ fix_)).
Proof. apply b64dec_enc, hmac512_wf. Qed.
Lemma msgKeyText_nonnil C ck pub fix_ : msgKeyText C ck pub fix_ <> [].
Proof.
  intros E. pose proof (msgKeyText_dec C ck pub fix_) as D. rewrite E in D.
  assert (X : b64dec [] = Some []) by reflexivity. rewrite X in D. clear X E.
  revert D. generalize (hmac512_len C ck (str "MESSAGE" ++ sha512 C pub ++ fix_)).
  generalize (hmac512 C ck (str "MESSAGE" ++ sha512 C pub ++ fix_)). intros b L D.
  injection D as D. subst b. discriminate L.
Qed.
Definition msgKeyVal (C : Crypto) (ck pub fix_ : bytes) : bytes := hmac512 C ck (str "MESSAGE" ++ sha512 C pub ++ fix_).
Lemma decode_fixed_enc n e1 e2 b : wfb b -> lenN b = n -> decode_fixed n e1 e2 (b64enc b) = Ok b.
Proof.
  intros W L. unfold decode_fixed. rewrite b64dec_enc by exact W. rewrite L, N.ltb_irrefl.
  rewrite takeN_all by lia. reflexivity.
Qed.
Lemma decode_fixed_key C ck pub fix_ e1 e2 : decode_fixed 64 e1 e2 (msgKeyText C ck pub fix_) = Ok (msgKeyVal C ck pub fix_).
Proof. apply decode_fixed_enc; [apply hmac512_wf|apply hmac512_len]. Qed.

(* ---------------- sessions ---------------- *)
(* A stored session holds the first n keys of the chain that starts at root, where a slot may have been emptied. *)
Record sessOk (C : Crypto) (root own peer fix_ rh : bytes) (n : nat) (s : sess) : Prop := {
  so_root : sRoot s = rh;
  so_chain : sChain s = b64enc (chainAt C root n);
  so_slen : length (sSend s) = n;
  so_rlen : length (sRecv s) = n;
  so_send : forall i, (i < n)%nat -> nth i (sSend s) [] = msgKeyText C (chainAt C root i) peer fix_ \/ nth i (sSend s) [] = [];
  so_recv : forall i, (i < n)%nat -> nth i (sRecv s) [] = msgKeyText C (chainAt C root i) own fix_ \/ nth i (sRecv s) [] = []
}.
Definition sessKeyOf (C : Crypto) (ownId peerId own peer : bytes) : bytes :=
  calcKey C ownId peerId (hashText C own) (hashText C peer).

Lemma apply_store_session st sk rh ck send recv :
  mget sk (sessions (apply_op (OStoreSession sk rh ck send recv) st)) =
  Some (match mget sk (sessions st) with
        | None => mkSess rh ck send recv
        | Some s => mkSess (sRoot s) ck (sSend s ++ send) (sRecv s ++ recv) end).
Proof. cbn [apply_op sessions]. now rewrite mget_mset_same. Qed.

Lemma generate_eq C sId rId sH rH root (rk : bool) sPub rPub n w : 1 <= n ->
  generateMessageKeys C sId rId sH rH root rk sPub rPub n w =
  (Ok tt, step_op w (OStoreSession
     (if rk then sessKeyOf C rH sH rPub sPub else sessKeyOf C sH rH sPub rPub)
     (b64enc (sha512 C root)) (b64enc (chainAt C root (N.to_nat n)))
     (keysFor C root (if rk then sPub else rPub) (identityFix C sId rId) (N.to_nat n))
     (keysFor C root (if rk then rPub else sPub) (identityFix C sId rId) (N.to_nat n)))).
Proof.
  intros H. unfold generateMessageKeys. rewrite keyLoop_spec.
  destruct (n =? 0) eqn:E; [lia|].
  destruct rk; unfold storeSession, lenN; rewrite !keysFor_len, N.eqb_refl; reflexivity.
Qed.

Lemma sessOk_extend C root own peer fix_ rh n m s :
  sessOk C root own peer fix_ rh n s ->
  sessOk C root own peer fix_ rh (n + m)
    (mkSess (sRoot s) (b64enc (chainAt C (chainAt C root n) m))
       (sSend s ++ keysFor C (chainAt C root n) peer fix_ m)
       (sRecv s ++ keysFor C (chainAt C root n) own fix_ m)).
Proof.
  intros [R Ch SL RL S R2]. constructor; cbn [sRoot sChain sSend sRecv].
  - exact R.
  - now rewrite chainAt_add.
  - rewrite app_length, keysFor_len. lia.
  - rewrite app_length, keysFor_len. lia.
  - intros i Hi. destruct (Nat.lt_ge_cases i n) as [L|G].
    + rewrite app_nth1 by lia. apply S. exact L.
    + left. rewrite app_nth2 by lia. rewrite keysFor_nth by lia. rewrite chainAt_add. do 2 f_equal. lia.
  - intros i Hi. destruct (Nat.lt_ge_cases i n) as [L|G].
    + rewrite app_nth1 by lia. apply R2. exact L.
    + left. rewrite app_nth2 by lia. rewrite keysFor_nth by lia. rewrite chainAt_add. do 2 f_equal. lia.
Qed.
Lemma sessOk_init C root own peer fix_ n :
  sessOk C root own peer fix_ (b64enc (sha512 C root)) n
    (mkSess (b64enc (sha512 C root)) (b64enc (chainAt C root n)) (keysFor C root peer fix_ n) (keysFor C root own fix_ n)).
Proof.
  constructor; cbn [sRoot sChain sSend sRecv]; try reflexivity; try apply keysFor_len;
    intros i Hi; left; now rewrite keysFor_nth by lia.
Qed.
Lemma sessOk_del C root own peer fix_ rh n s (sender : bool) i :
  sessOk C root own peer fix_ rh n s ->
  sessOk C root own peer fix_ rh n
    (if sender then mkSess (sRoot s) (sChain s) (set_nth i [] (sSend s)) (sRecv s)
     else mkSess (sRoot s) (sChain s) (sSend s) (set_nth i [] (sRecv s))).
Proof.
  intros [R Ch SL RL S R2]. destruct sender; constructor; cbn [sRoot sChain sSend sRecv]; auto;
    try (now rewrite set_nth_length); intros j Hj; destruct (Nat.eq_dec j i) as [->|Ne];
    try (right; apply nth_set_same; lia); rewrite nth_set_other by exact Ne; auto.
Qed.
Lemma nthN_to_nat i l : nthN i l = nth (N.to_nat i) l [].
Proof. reflexivity. Qed.
Lemma getMessageKeyR_sessOk C root own peer fix_ rh n s sk st (sender : bool) i :
  mget sk (sessions st) = Some s -> sessOk C root own peer fix_ rh n s -> (N.to_nat i < n)%nat ->
  nthN i (if sender then sSend s else sRecv s) <> [] ->
  getMessageKeyR sk sender i st = Ok (msgKeyVal C (chainAt C root (N.to_nat i)) (if sender then peer else own) fix_).
Proof.
  intros Hg [R Ch SL RL S R2] Hi Hne. unfold getMessageKeyR, memSession. rewrite Hg. cbn [rbind].
  assert (X : lenN (sSend s) <=? i = false) by (unfold lenN; lia). rewrite X.
  replace (if sender then nthN i (sSend s) else nthN i (sRecv s)) with (nthN i (if sender then sSend s else sRecv s)) by (destruct sender; reflexivity).
  destruct (beq (nthN i (if sender then sSend s else sRecv s)) []) eqn:B.
  { apply beq_spec in B. contradiction. }
  unfold nthN in *. destruct sender.
  - destruct (S _ Hi) as [E|E]; [|contradiction]. rewrite E. apply decode_fixed_key.
  - destruct (R2 _ Hi) as [E|E]; [|contradiction]. rewrite E. apply decode_fixed_key.
Qed.
Lemma getMessageKeyR_sessOk_inv C root own peer fix_ rh n s sk st (sender : bool) i k :
  mget sk (sessions st) = Some s -> sessOk C root own peer fix_ rh n s ->
  getMessageKeyR sk sender i st = Ok k ->
  (N.to_nat i < n)%nat /\ k = msgKeyVal C (chainAt C root (N.to_nat i)) (if sender then peer else own) fix_
  /\ nthN i (if sender then sSend s else sRecv s) <> [].
Proof.
  intros Hg Hs H.
  assert (Hi : (N.to_nat i < n)%nat).
  { unfold getMessageKeyR, memSession in H. rewrite Hg in H. cbn [rbind] in H.
    destruct (lenN (sSend s) <=? i) eqn:L; [discriminate|]. destruct Hs as [_ _ SL _ _ _].
    unfold lenN in L. lia. }
  assert (Hne : nthN i (if sender then sSend s else sRecv s) <> []).
  { intros E. unfold getMessageKeyR, memSession in H. rewrite Hg in H. cbn [rbind] in H.
    destruct (lenN (sSend s) <=? i) eqn:L; [discriminate|].
    destruct sender; rewrite E, beq_refl in H; discriminate. }
  split; [exact Hi|]. split; [|exact Hne].
  rewrite (getMessageKeyR_sessOk _ _ _ _ _ _ _ _ _ _ _ _ Hg Hs Hi Hne) in H. now injection H.
Qed.
Lemma deriveRootKey_len C a b c o : lenN (deriveRootKey C a b c o) = 32.
Proof. apply hkdf512_len. Qed.
Lemma deriveRootKey_wf C a b c o : wfb (deriveRootKey C a b c o).
Proof. apply hkdf512_wf. Qed.

(* ---------------- checkKeys ---------------- *)
Lemma checkKeys_ok a b c d e : checkKeys a b c d e = Ok tt <-> NoDup [a; b; c; d; e].
Proof.
  unfold checkKeys. split.
  - intros H.
    repeat match type of H with context [if beq ?x ?y then _ else _] =>
      let E := fresh "E" in destruct (beq x y) eqn:E; [discriminate|];
      assert (x <> y) by (intros ->; rewrite beq_refl in E; discriminate) end.
    repeat constructor; cbn [In]; intuition congruence.
  - intros H. repeat match goal with H : NoDup (_ :: _) |- _ => inversion H; clear H; subst end.
    cbn [In] in *.
    repeat match goal with |- context [if beq ?x ?y then _ else _] =>
      let E := fresh "E" in destruct (beq x y) eqn:E; [apply beq_spec in E; subst; exfalso; tauto|] end.
    reflexivity.
Qed.
Lemma checkKeys_cases a b c d e :
  checkKeys a b c d e = Ok tt \/ checkKeys a b c d e = Err "msg: reflection attack detected".
Proof.
  unfold checkKeys.
  repeat match goal with |- context [if beq ?x ?y then _ else _] => destruct (beq x y); [right; reflexivity|] end.
  now left.
Qed.

(* ---------------- key entries ---------------- *)
Lemma initDHKey_pub32 C p : pub32 (initDHKey C p) = Ok (dhpub C p).
Proof.
  unfold pub32, initDHKey; cbn [kePub keFunc]. rewrite b64dec_enc by apply dhpub_wf.
  rewrite beq_refl. cbn [orb]. rewrite dhpub_len. reflexivity.
Qed.
Lemma initDHKey_verify C p : keVerify C (initDHKey C p) = Ok tt.
Proof.
  unfold keVerify, initDHKey; cbn [kePub keFunc keSuite keHash]. rewrite beq_refl. cbn [negb].
  replace (negb (beq fECDHE (str "ED25510")) && negb (beq fECDHE fECDHE)) with false by (vm_compute; reflexivity).
  rewrite b64dec_enc by apply sha512_wf. rewrite sha512_len.
  rewrite b64dec_enc by apply dhpub_wf. rewrite dhpub_len, beq_refl. reflexivity.
Qed.
Lemma pub32_len ke p : pub32 ke = Ok p -> lenN p = 32.
Proof.
  unfold pub32. destruct (b64dec (kePub ke)); [|discriminate].
  destruct (_ || _); [|discriminate]. destruct (lenN b =? 32) eqn:E; [|discriminate].
  intros H; injection H as <-. lia.
Qed.
