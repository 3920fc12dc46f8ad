(* Theorems for C05, C06 and C08: message keys of a session, single use of
   message keys, reflection check. *)
From Verif Require Import Base Base64Model Base64Proofs JsonModel Maps CryptoModel StoreModel KeysModel KeysProofs.
Local Open Scope N_scope.

(* ------------------------------ C05 ------------------------------- *)
(* What one side of a session knows. *)
Record side := mkSide { sdOwn : bytes; sdPeer : bytes;          (* identities *)
                        sdOwnH : bytes; sdPeerH : bytes;        (* hashes of the identity keys *)
                        sdOwnPub : bytes; sdPeerPub : bytes }.  (* session public keys *)
Definition sideName (C : Crypto) (d : side) : bytes :=
  calcKey C (sdOwnH d) (sdPeerH d) (hashText C (sdOwnPub d)) (hashText C (sdPeerPub d)).
(* Later operations of one side on this session: refills (from Encrypt or from
   Decrypt, of any size) and deletions of keys. *)
Inductive kstep := KRefillSend (n : N) | KRefillRecv (n : N) | KDel (sender : bool) (i : N).
Definition kstep_ok (k : kstep) : Prop := match k with KRefillSend n | KRefillRecv n => 1 <= n | KDel _ _ => True end.
Definition kstep_run (C : Crypto) (d : side) (w : world) (k : kstep) : world :=
  snd (match k with
       | KRefillSend n => refillSender C (sideName C d) (sdOwn d) (sdPeer d) (sdOwnH d) (sdPeerH d) (sdOwnPub d) (sdPeerPub d) n w
       | KRefillRecv n => refillRecipient C (sideName C d) (sdOwn d) (sdPeer d) (sdOwnH d) (sdPeerH d) (sdOwnPub d) (sdPeerPub d) n w
       | KDel s i => delMessageKey (sideName C d) s i w
       end).
Definition ksteps_run (C : Crypto) (d : side) : list kstep -> world -> world := fold_left (kstep_run C d).
Definition kstep_keys (k : kstep) : N := match k with KRefillSend n | KRefillRecv n => n | KDel _ _ => 0 end.
Definition total_keys (n : N) (l : list kstep) : N := fold_left (fun a k => a + kstep_keys k) l n.
Definition never_deleted (sender : bool) (i : N) (l : list kstep) : Prop := ~ In (KDel sender i) l.

Lemma mget_eq_None_fresh {V} k (m : map_ V) : mget k m = None -> mhas k m = false.
Proof. unfold mhas. now intros ->. Qed.

Definition sideInv (C : Crypto) (root : bytes) (d : side) (n : nat) (del : bool -> N -> Prop) (w : world) : Prop :=
  exists s, mget (sideName C d) (sessions (wStore w)) = Some s
    /\ sessOk C root (sdOwnPub d) (sdPeerPub d) (identityFix C (sdOwn d) (sdPeer d)) (b64enc (sha512 C root)) n s
    /\ (forall i, (N.to_nat i < n)%nat -> ~ del true i -> nthN i (sSend s) <> [])
    /\ (forall i, (N.to_nat i < n)%nat -> ~ del false i -> nthN i (sRecv s) <> []).

Lemma sideInv_refill C root d n del w m (rk : bool) :
  wfb root -> lenN root = 32 -> sideInv C root d n del w -> 1 <= m ->
  sideInv C root d (n + N.to_nat m) del
    (kstep_run C d w (if rk then KRefillRecv m else KRefillSend m)).
Proof.
  intros Wr Lr (s & Hg & Hs & Hsn & Hrn) Hm.
  assert (HC : getChainKey (sideName C d) w = (Ok (chainAt C root n), w)).
  { unfold getChainKey, memSession. rewrite Hg. cbn [rbind]. rewrite (so_chain _ _ _ _ _ _ _ _ Hs).
    rewrite decode_fixed_enc by (auto using chainAt_wf, chainAt_len). reflexivity. }
  set (fx := identityFix C (sdOwn d) (sdPeer d)) in *.
  assert (Hw : kstep_run C d w (if rk then KRefillRecv m else KRefillSend m) =
    step_op w (OStoreSession (sideName C d) (b64enc (sha512 C (chainAt C root n)))
       (b64enc (chainAt C (chainAt C root n) (N.to_nat m)))
       (keysFor C (chainAt C root n) (sdPeerPub d) fx (N.to_nat m))
       (keysFor C (chainAt C root n) (sdOwnPub d) fx (N.to_nat m)))).
  { destruct rk; unfold kstep_run, refillRecipient, refillSender, mbind; rewrite HC, generate_eq by exact Hm; cbn [snd].
    - rewrite (identityFix_sym C (sdPeer d) (sdOwn d)). reflexivity.
    - reflexivity. }
  rewrite Hw. unfold sideInv.
  eexists. split; [unfold step_op; cbn [wStore]; rewrite apply_store_session, Hg; reflexivity|].
  split; [apply sessOk_extend; exact Hs|].
  pose proof (so_slen _ _ _ _ _ _ _ _ Hs) as SL. pose proof (so_rlen _ _ _ _ _ _ _ _ Hs) as RL.
  cbn [sSend sRecv]. split; intros i Hi Hd; unfold nthN.
  - destruct (Nat.lt_ge_cases (N.to_nat i) n) as [L|G].
    + rewrite app_nth1 by lia. apply Hsn; assumption.
    + rewrite app_nth2 by lia. rewrite keysFor_nth by lia. apply msgKeyText_nonnil.
  - destruct (Nat.lt_ge_cases (N.to_nat i) n) as [L|G].
    + rewrite app_nth1 by lia. apply Hrn; assumption.
    + rewrite app_nth2 by lia. rewrite keysFor_nth by lia. apply msgKeyText_nonnil.
Qed.
Lemma sideInv_del C root d n (del : bool -> N -> Prop) w b i :
  sideInv C root d n del w ->
  sideInv C root d n (fun b' i' => del b' i' \/ (b' = b /\ i' = i)) (kstep_run C d w (KDel b i)).
Proof.
  intros (s & Hg & Hs & Hsn & Hrn). unfold kstep_run, delMessageKey, mbind, numMessageKeys, memSession.
  rewrite Hg. cbn [rbind].
  destruct (lenN (sSend s) <=? i) eqn:L; cbn [fail snd].
  { exists s. split; [exact Hg|]. split; [exact Hs|]. split; intros; [apply Hsn|apply Hrn]; tauto. }
  unfold emit, step_op, sideInv; cbn [snd wStore apply_op]. rewrite Hg. cbn [sessions].
  eexists. rewrite mget_mset_same. split; [reflexivity|]. split; [apply sessOk_del; exact Hs|].
  destruct b; cbn [sSend sRecv]; split; intros j Hj Hd; try (apply Hsn; tauto); try (apply Hrn; tauto);
    unfold nthN; rewrite nth_set_other;
    try (apply Hsn; tauto); try (apply Hrn; tauto); intros E; apply Hd; right; split; lia || reflexivity.
Qed.
Lemma sideInv_steps C root d l : forall n del w, wfb root -> lenN root = 32 ->
  Forall kstep_ok l -> sideInv C root d (N.to_nat n) del w ->
  sideInv C root d (N.to_nat (total_keys n l)) (fun b i => del b i \/ In (KDel b i) l) (ksteps_run C d l w).
Proof.
  induction l as [|k l IH]; intros n del w Wr Lr Hok H.
  - destruct H as (s & Hg & Hs & Hsn & Hrn). exists s. repeat split; try assumption; try (apply Hs);
      intros; [apply Hsn|apply Hrn]; tauto.
  - inversion Hok as [|? ? H1 H2]; subst. cbn [ksteps_run fold_left total_keys].
    assert (G : forall del' w', sideInv C root d (N.to_nat (n + kstep_keys k)) del' w' ->
              (forall b i, del' b i -> del b i \/ KDel b i = k) ->
              w' = kstep_run C d w k ->
              sideInv C root d (N.to_nat (total_keys (n + kstep_keys k) l))
                (fun b i => del b i \/ In (KDel b i) (k :: l)) (ksteps_run C d l (kstep_run C d w k))).
    { intros del' w' Hi Hd ->. apply (IH _ _ _ Wr Lr H2) in Hi.
      destruct Hi as (s & Hg & Hs & Hsn & Hrn). exists s. split; [exact Hg|]. split; [exact Hs|].
      split; intros i Hi' Hnd; [apply Hsn|apply Hrn]; try exact Hi'; intros [X|X]; apply Hnd;
        try (right; right; exact X); apply Hd in X as [X|X]; [left; exact X|right; left; now symmetry|left; exact X|right; left; now symmetry]. }
    destruct k as [m|m|b i]; cbn [kstep_keys kstep_ok] in *.
    + apply (G del _ ltac:(replace (N.to_nat (n + m)) with (N.to_nat n + N.to_nat m)%nat by lia; exact (sideInv_refill C root d _ del w m false Wr Lr H H1))); [tauto|reflexivity].
    + apply (G del _ ltac:(replace (N.to_nat (n + m)) with (N.to_nat n + N.to_nat m)%nat by lia; exact (sideInv_refill C root d _ del w m true Wr Lr H H1))); [tauto|reflexivity].
    + eapply G; [rewrite N.add_0_r; apply (sideInv_del C root d _ del w b i H)| |reflexivity].
      intros b' i' [X|[-> ->]]; [left; exact X|right; reflexivity].
Qed.
Lemma sideInv_get C root d n del w (sender : bool) i : sideInv C root d n del w -> (N.to_nat i < n)%nat ->
  ~ del sender i ->
  getMessageKeyR (sideName C d) sender i (wStore w) =
  Ok (msgKeyVal C (chainAt C root (N.to_nat i)) (if sender then sdPeerPub d else sdOwnPub d) (identityFix C (sdOwn d) (sdPeer d))).
Proof.
  intros (s & Hg & Hs & Hsn & Hrn) Hi Hd. eapply getMessageKeyR_sessOk; eauto.
  destruct sender; [apply Hsn|apply Hrn]; assumption.
Qed.
Lemma sideInv_get_inv C root d n del w (sender : bool) i k : sideInv C root d n del w ->
  getMessageKeyR (sideName C d) sender i (wStore w) = Ok k ->
  k = msgKeyVal C (chainAt C root (N.to_nat i)) (if sender then sdPeerPub d else sdOwnPub d) (identityFix C (sdOwn d) (sdPeer d)).
Proof.
  intros (s & Hg & Hs & _ & _) H. now apply (getMessageKeyR_sessOk_inv _ _ _ _ _ _ _ _ _ _ _ _ _ Hg Hs) in H as (_ & E & _).
Qed.
Lemma sideInv_start C root d n w sk rh ck send recv :
  mget (sideName C d) (sessions (wStore w)) = None ->
  sk = sideName C d -> rh = b64enc (sha512 C root) -> ck = b64enc (chainAt C root n) ->
  send = keysFor C root (sdPeerPub d) (identityFix C (sdOwn d) (sdPeer d)) n ->
  recv = keysFor C root (sdOwnPub d) (identityFix C (sdOwn d) (sdPeer d)) n ->
  sideInv C root d n (fun _ _ => False) (step_op w (OStoreSession sk rh ck send recv)).
Proof.
  intros Hf -> -> -> -> ->. unfold sideInv, step_op; cbn [wStore]. rewrite apply_store_session, Hf.
  eexists. split; [reflexivity|]. split; [apply sessOk_init|].
  cbn [sSend sRecv]; unfold nthN; split; intros i Hi _; rewrite keysFor_nth by lia; apply msgKeyText_nonnil.
Qed.

Section C05.
Variable C : Crypto.
(* Private keys of the four key pairs of an agreement and the entries that carry the public halves. *)
Variables (sessPriv sidPriv kiPriv ridPriv : bytes) (sess_ sid ki rid : keyEntry).
Hypothesis Hsess : pub32 sess_ = Ok (dhpub C sessPriv).
Hypothesis Hsid : pub32 sid = Ok (dhpub C sidPriv).
Hypothesis Hki : pub32 ki = Ok (dhpub C kiPriv).
Hypothesis Hrid : pub32 rid = Ok (dhpub C ridPriv).
Variables (hdrPub sender recipient : bytes) (prev : option bytes) (nA nB : N).
Hypothesis HnA : 1 <= nA.
Hypothesis HnB : 1 <= nB.
Definition c05A := mkSide sender recipient (keHash sid) (keHash rid) (dhpub C sessPriv) (dhpub C kiPriv).
Definition c05B := mkSide recipient sender (keHash rid) (keHash sid) (dhpub C kiPriv) (dhpub C sessPriv).
Variables wA wA' wB wB' : world.
Hypothesis HA : rootKeyAgreementSender C hdrPub sender recipient sess_ sessPriv sid sidPriv ki rid prev nA wA = (Ok tt, wA').
Hypothesis HB : rootKeyAgreementRecipient C hdrPub sender recipient sess_ sid ki kiPriv rid ridPriv prev nB wB = (Ok tt, wB').
(* neither side had a session of that name before *)
Hypothesis FA : mget (sideName C c05A) (sessions (wStore wA)) = None.
Hypothesis FB : mget (sideName C c05B) (sessions (wStore wB)) = None.

Definition c05root := deriveRootKey C (dh C sidPriv (dhpub C kiPriv)) (dh C sessPriv (dhpub C kiPriv)) (dh C sessPriv (dhpub C ridPriv)) prev.
Lemma c05_A : sideInv C c05root c05A (N.to_nat nA) (fun _ _ => False) wA'.
Proof using Hsess Hsid Hki Hrid HnA HA FA.
  unfold rootKeyAgreementSender, mbind, lift in HA. rewrite Hsess, Hsid, Hki, Hrid in HA. cbv beta iota in HA.
  destruct (checkKeys _ _ _ _ _) as [[]| |] eqn:K in HA; try discriminate.
  unfold ecdh in HA.
  destruct (beq (dhpub C sidPriv) (dhpub C kiPriv)); [discriminate|].
  destruct (beq (dhpub C sessPriv) (dhpub C kiPriv)); [discriminate|].
  destruct (beq (dhpub C sessPriv) (dhpub C ridPriv)); [discriminate|].
  rewrite generate_eq in HA by exact HnA. injection HA as <-.
  apply sideInv_start; try reflexivity. exact FA.
Qed.
Lemma c05_B : sideInv C c05root c05B (N.to_nat nB) (fun _ _ => False) wB'.
Proof using Hsess Hsid Hki Hrid HnB HB FB.
  unfold rootKeyAgreementRecipient, mbind, lift in HB. rewrite Hsess, Hsid, Hki, Hrid in HB. cbv beta iota in HB.
  destruct (checkKeys _ _ _ _ _) as [[]| |] eqn:K in HB; try discriminate.
  unfold ecdh in HB.
  destruct (beq (dhpub C kiPriv) (dhpub C sidPriv)); [discriminate|].
  destruct (beq (dhpub C kiPriv) (dhpub C sessPriv)); [discriminate|].
  destruct (beq (dhpub C ridPriv) (dhpub C sessPriv)); [discriminate|].
  rewrite generate_eq in HB by exact HnB. injection HB as <-.
  rewrite !(dh_comm C kiPriv), !(dh_comm C ridPriv).
  apply sideInv_start; try reflexivity; try exact FB;
    cbn [c05B sdOwn sdPeer]; now rewrite (identityFix_sym C recipient sender).
Qed.

(* After any further refills and deletions on either side: whenever both ends
   still hold the key for message i, it is the same key, in both directions. *)
Theorem C05_keys_agree : forall lA lB i kA kB, Forall kstep_ok lA -> Forall kstep_ok lB ->
  (getMessageKeyR (sideName C c05A) true i (wStore (ksteps_run C c05A lA wA')) = Ok kA ->
   getMessageKeyR (sideName C c05B) false i (wStore (ksteps_run C c05B lB wB')) = Ok kB -> kA = kB)
  /\
  (getMessageKeyR (sideName C c05A) false i (wStore (ksteps_run C c05A lA wA')) = Ok kA ->
   getMessageKeyR (sideName C c05B) true i (wStore (ksteps_run C c05B lB wB')) = Ok kB -> kA = kB).
Proof using Hsess Hsid Hki Hrid HnA HnB HA HB FA FB.
  intros lA lB i kA kB oA oB.
  assert (W : wfb c05root) by apply deriveRootKey_wf. assert (L : lenN c05root = 32) by apply deriveRootKey_len.
  pose proof (sideInv_steps C c05root c05A lA nA _ _ W L oA c05_A) as IA.
  pose proof (sideInv_steps C c05root c05B lB nB _ _ W L oB c05_B) as IB.
  split; intros GA GB; apply (sideInv_get_inv _ _ _ _ _ _ _ _ _ IA) in GA; apply (sideInv_get_inv _ _ _ _ _ _ _ _ _ IB) in GB;
    rewrite GA, GB; cbn [c05A c05B sdOwn sdPeer sdOwnPub sdPeerPub]; now rewrite (identityFix_sym C recipient sender).
Qed.
(* Each side holds as many keys as were ever asked for, and all those it has not deleted are there. *)
Theorem C05_keys_present : forall lA lB (dir : bool) i, Forall kstep_ok lA -> Forall kstep_ok lB ->
  (i < total_keys nA lA -> never_deleted dir i lA ->
   exists k, getMessageKeyR (sideName C c05A) dir i (wStore (ksteps_run C c05A lA wA')) = Ok k)
  /\
  (i < total_keys nB lB -> never_deleted dir i lB ->
   exists k, getMessageKeyR (sideName C c05B) dir i (wStore (ksteps_run C c05B lB wB')) = Ok k).
Proof using Hsess Hsid Hki Hrid HnA HnB HA HB FA FB.
  intros lA lB dir i oA oB.
  assert (W : wfb c05root) by apply deriveRootKey_wf. assert (L : lenN c05root = 32) by apply deriveRootKey_len.
  pose proof (sideInv_steps C c05root c05A lA nA _ _ W L oA c05_A) as IA.
  pose proof (sideInv_steps C c05root c05B lB nB _ _ W L oB c05_B) as IB.
  split; intros Hi Hn; eexists; eapply sideInv_get; eauto; try lia; intros [[]|X]; apply Hn; exact X.
Qed.
(* The root key hash that seeds the next agreement is the same on both sides. *)
Theorem C05_root_hash_agree : forall lA lB, Forall kstep_ok lA -> Forall kstep_ok lB ->
  exists h, fst (getRootKeyHash (sideName C c05A) (ksteps_run C c05A lA wA')) = Ok h
         /\ fst (getRootKeyHash (sideName C c05B) (ksteps_run C c05B lB wB')) = Ok h.
Proof using Hsess Hsid Hki Hrid HnA HnB HA HB FA FB.
  intros lA lB oA oB.
  assert (W : wfb c05root) by apply deriveRootKey_wf. assert (L : lenN c05root = 32) by apply deriveRootKey_len.
  pose proof (sideInv_steps C c05root c05A lA nA _ _ W L oA c05_A) as (sA & gA & IA & _).
  pose proof (sideInv_steps C c05root c05B lB nB _ _ W L oB c05_B) as (sB & gB & IB & _).
  exists (sha512 C c05root). unfold getRootKeyHash, memSession. rewrite gA, gB. cbn [fst rbind].
  rewrite (so_root _ _ _ _ _ _ _ _ IA), (so_root _ _ _ _ _ _ _ _ IB).
  rewrite decode_fixed_enc by (apply sha512_wf || apply sha512_len). auto.
Qed.
End C05.

(* A concrete agreement: three keys at the sender, two at the recipient, then refills on both sides. *)
Definition exW : world := mkWorld emptyStore [] [].
Definition exk (n : N) : bytes := be 32 n.
Definition exA := rootKeyAgreementSender toy (dhpub toy (exk 10)) (str "alice@m") (str "bob@m") (initDHKey toy (exk 11)) (exk 11)
   (initDHKey toy (exk 12)) (exk 12) (initDHKey toy (exk 13)) (initDHKey toy (exk 14)) None 3 exW.
Definition exB := rootKeyAgreementRecipient toy (dhpub toy (exk 10)) (str "alice@m") (str "bob@m") (initDHKey toy (exk 11))
   (initDHKey toy (exk 12)) (initDHKey toy (exk 13)) (exk 13) (initDHKey toy (exk 14)) (exk 14) None 2 exW.
Definition exSA := c05A toy (exk 11) (exk 13) (initDHKey toy (exk 12)) (initDHKey toy (exk 14)) (str "alice@m") (str "bob@m").
Definition exSB := c05B toy (exk 11) (exk 13) (initDHKey toy (exk 12)) (initDHKey toy (exk 14)) (str "alice@m") (str "bob@m").
Example C05_ex_runs : fst exA = Ok tt /\ fst exB = Ok tt. Proof. vm_compute; auto. Qed.
Example C05_ex_agree :
  let a := wStore (ksteps_run toy exSA [KRefillSend 2; KDel true 0; KRefillRecv 4] (snd exA)) in
  let b := wStore (ksteps_run toy exSB [KRefillRecv 5] (snd exB)) in
  getMessageKeyR (sideName toy exSA) true 6 a = getMessageKeyR (sideName toy exSB) false 6 b
  /\ is_ok (getMessageKeyR (sideName toy exSA) true 6 a) = true
  /\ getMessageKeyR (sideName toy exSA) true 6 a <> getMessageKeyR (sideName toy exSA) true 5 a
  /\ getMessageKeyR (sideName toy exSA) true 6 a <> getMessageKeyR (sideName toy exSA) false 6 a.
Proof. vm_compute. repeat split; discriminate. Qed.

(* ------------------------------ C06 ------------------------------- *)
Definition apply_ops (l : list op) (st : store) : store := fold_left (fun s o => apply_op o s) l st.
Definition is_used (r : res bytes) : Prop := r = Err "session: message key has already been used".
(* A store whose sessions hold equally many keys in both directions; every store built by the operations is one. *)
Definition balanced (st : store) : Prop := forall sk s, mget sk (sessions st) = Some s -> lenN (sSend s) = lenN (sRecv s).
Definition op_ok (o : op) : Prop := match o with OStoreSession _ _ _ send recv => lenN send = lenN recv | _ => True end.

Lemma balanced_apply o st : op_ok o -> balanced st -> balanced (apply_op o st).
Proof.
  intros Ho Hb sk s. destruct o as [k s0|sk0 rh ck send recv|h j p c|h|sk0 b i|b]; cbn [apply_op sessions].
  - apply Hb.
  - rewrite mget_mset. destruct (beq sk sk0) eqn:E; [|apply Hb].
    intros H; injection H as <-. destruct (mget sk0 (sessions st)) as [s1|] eqn:G; cbn [sSend sRecv].
    + rewrite !lenN_app. rewrite (Hb _ _ G), Ho. reflexivity.
    + exact Ho.
  - apply Hb.
  - destruct (mget h (skeys st)); cbn [sessions]; apply Hb.
  - destruct (mget sk0 (sessions st)) as [s1|] eqn:G; cbn [sessions]; [|apply Hb].
    rewrite mget_mset. destruct (beq sk sk0); [|apply Hb].
    intros H; injection H as <-. destruct b; cbn [sSend sRecv]; rewrite set_nth_lenN; exact (Hb _ _ G).
  - apply Hb.
Qed.
Lemma balanced_apply_ops l : forall st, Forall op_ok l -> balanced st -> balanced (apply_ops l st).
Proof.
  induction l as [|o l IH]; intros st Hl Hb; [exact Hb|]. inversion Hl; subst. cbn [apply_ops fold_left].
  apply IH; [assumption|]. now apply balanced_apply.
Qed.
Theorem C06_balanced : forall l, Forall op_ok l -> balanced (apply_ops l emptyStore).
Proof. intros l H. apply balanced_apply_ops; [exact H|]. intros sk s. discriminate. Qed.

(* the slot of key i is empty and lies within the list *)
Definition emptied (sk : bytes) (sender : bool) (i : N) (st : store) : Prop :=
  exists s, mget sk (sessions st) = Some s /\ i < lenN (sSend s) /\ lenN (sSend s) = lenN (sRecv s)
            /\ nthN i (if sender then sSend s else sRecv s) = [].
Lemma emptied_get sk b i st : emptied sk b i st -> is_used (getMessageKeyR sk b i st).
Proof.
  intros (s & Hg & Hi & Hl & Hn). unfold is_used, getMessageKeyR, memSession. rewrite Hg. cbn [rbind].
  destruct (lenN (sSend s) <=? i) eqn:E; [lia|].
  destruct b; rewrite Hn; rewrite beq_refl; reflexivity.
Qed.
Lemma emptied_apply sk b i o st : op_ok o -> emptied sk b i st -> emptied sk b i (apply_op o st).
Proof.
  intros Ho (s & Hg & Hi & Hl & Hn).
  destruct o as [k s0|sk0 rh ck send recv|h j p c|h|sk0 b' i'|x]; cbn [apply_op sessions].
  - exists s; auto.
  - unfold emptied; cbn [sessions]. destruct (beq sk sk0) eqn:E.
    + apply beq_spec in E; subst sk0. rewrite mget_mset_same, Hg. eexists. split; [reflexivity|].
      cbn [sSend sRecv]. cbn [op_ok] in Ho. rewrite !lenN_app. split; [lia|]. split; [lia|].
      unfold nthN in *. unfold lenN in *.
      destruct b; rewrite app_nth1 by lia; exact Hn.
    + rewrite mget_mset, E. exists s; auto.
  - exists s; auto.
  - destruct (mget h (skeys st)); exists s; auto.
  - destruct (mget sk0 (sessions st)) as [s1|] eqn:G; [|exists s; auto].
    unfold emptied; cbn [sessions]. destruct (beq sk sk0) eqn:E.
    + apply beq_spec in E; subst sk0. rewrite mget_mset_same. assert (s1 = s) by congruence; subst s1.
      eexists. split; [reflexivity|]. destruct b'; cbn [sSend sRecv]; rewrite set_nth_lenN; (split; [lia|]; split; [lia|]);
        destruct b; try exact Hn; unfold nthN in *;
        (destruct (Nat.eq_dec (N.to_nat i) (N.to_nat i')) as [E|E];
         [rewrite <- E, nth_set_same by (unfold lenN in *; lia); reflexivity|rewrite nth_set_other by exact E; exact Hn]).
    + rewrite mget_mset, E. exists s; auto.
  - exists s; auto.
Qed.

(* Once deleted, always refused: whatever sequence of store operations follows. *)
Theorem C06_key_used_once : forall (before after : list op) sk sender i w1 w2,
  Forall op_ok before -> Forall op_ok after ->
  wStore w1 = apply_ops before emptyStore ->
  delMessageKey sk sender i w1 = (Ok tt, w2) ->
  is_used (getMessageKeyR sk sender i (apply_ops after (wStore w2))).
Proof.
  intros bf af sk b i w1 w2 Hb Ha E1 D.
  pose proof (C06_balanced bf Hb) as Bal. rewrite <- E1 in Bal.
  unfold delMessageKey, mbind, numMessageKeys, memSession in D.
  destruct (mget sk (sessions (wStore w1))) as [s|] eqn:G; cbn [rbind] in D; [|discriminate].
  destruct (lenN (sSend s) <=? i) eqn:L; [discriminate|].
  unfold emit in D. injection D as <-.
  apply emptied_get.
  assert (Em : emptied sk b i (wStore (step_op w1 (ODelMsgKey sk b i)))).
  { unfold step_op; cbn [wStore apply_op]. rewrite G. unfold emptied; cbn [sessions]. rewrite mget_mset_same.
    pose proof (Bal _ _ G) as Be.
    eexists. split; [reflexivity|]. destruct b; cbn [sSend sRecv]; rewrite set_nth_lenN; (split; [lia|]; split; [lia|]);
      unfold nthN; apply nth_set_same; unfold lenN in *; lia. }
  clear -Em Ha. revert Em. generalize (wStore (step_op w1 (ODelMsgKey sk b i))). 
  induction af as [|o l IH]; intros st Em; [exact Em|]. inversion Ha; subst. cbn [apply_ops fold_left].
  apply IH; [assumption|]. now apply emptied_apply.
Qed.
(* The deletion touches exactly that key: every other session, direction and number answers as before. *)
Theorem C06_deletion_local : forall sk sender i w1 w2 sk' sender' i',
  delMessageKey sk sender i w1 = (Ok tt, w2) -> (sk', sender', i') <> (sk, sender, i) ->
  getMessageKeyR sk' sender' i' (wStore w2) = getMessageKeyR sk' sender' i' (wStore w1).
Proof.
  intros sk b i w1 w2 sk' b' i' D Hne.
  unfold delMessageKey, mbind, numMessageKeys, memSession in D.
  destruct (mget sk (sessions (wStore w1))) as [s|] eqn:G; cbn [rbind] in D; [|discriminate].
  destruct (lenN (sSend s) <=? i) eqn:L; [discriminate|].
  unfold emit in D. injection D as <-.
  unfold getMessageKeyR, memSession, step_op; cbn [wStore apply_op]. rewrite G; cbn [sessions].
  rewrite mget_mset. destruct (beq sk' sk) eqn:E; [|reflexivity].
  apply beq_spec in E; subst sk'. rewrite G. cbn [rbind].
  destruct b; cbn [sSend sRecv]; rewrite ?set_nth_lenN; (destruct (lenN (sSend s) <=? i'); [reflexivity|]);
    destruct b'; try reflexivity; unfold nthN; rewrite nth_set_other; try reflexivity;
    intros E; apply Hne; f_equal; lia.
Qed.
Example C06_ex :
  let sk := sideName toy exSA in
  let w := snd (delMessageKey sk true 1 (snd exA)) in
  fst (delMessageKey sk true 1 (snd exA)) = Ok tt
  /\ is_ok (getMessageKeyR sk true 1 (wStore (snd exA))) = true
  /\ is_used (getMessageKeyR sk true 1 (apply_ops [OStoreSession sk [] [] [str "a"] [str "b"]] (wStore w)))
  /\ is_ok (getMessageKeyR sk true 2 (wStore w)) = true /\ is_ok (getMessageKeyR sk false 1 (wStore w)) = true.
Proof. vm_compute. auto. Qed.

(* ------------------------------ C08 ------------------------------- *)
(* Agreement succeeds, on either side, exactly when the five public keys differ pairwise. *)
Theorem C08_sender : forall C hdr sender recipient sess_ sessPriv sid sidPriv ki rid prev n w p1 p2 p3 p4,
  pub32 sid = Ok p1 -> pub32 sess_ = Ok p2 -> pub32 rid = Ok p3 -> pub32 ki = Ok p4 ->
  let r := fst (rootKeyAgreementSender C hdr sender recipient sess_ sessPriv sid sidPriv ki rid prev n w) in
  (r = Ok tt <-> NoDup [hdr; p1; p2; p3; p4]) /\ (r <> Ok tt -> r = Err "msg: reflection attack detected"
     /\ snd (rootKeyAgreementSender C hdr sender recipient sess_ sessPriv sid sidPriv ki rid prev n w) = w).
Proof.
  intros C hdr a b se sp sid sidp ki rid prev n w p1 p2 p3 p4 H1 H2 H3 H4 r. subst r.
  unfold rootKeyAgreementSender, mbind, lift. rewrite H1, H2, H3, H4.
  destruct (checkKeys_cases hdr p1 p2 p3 p4) as [K|K]; rewrite K.
  - apply checkKeys_ok in K.
    assert (D : p1 <> p4 /\ p2 <> p4 /\ p2 <> p3).
    { repeat match goal with H : NoDup (_ :: _) |- _ => inversion H; clear H; subst end. cbn [In] in *. intuition congruence. }
    destruct D as (D1 & D2 & D3).
    assert (B : forall x y, x <> y -> beq x y = false) by (intros x y Hxy; destruct (beq x y) eqn:E; [apply beq_spec in E; contradiction|reflexivity]).
    unfold ecdh. rewrite !B by assumption. cbn [rbind].
    unfold generateMessageKeys. rewrite keyLoop_spec. unfold storeSession, lenN. rewrite !keysFor_len, N.eqb_refl.
    cbn. split; [tauto|]. intros X; elim X; reflexivity.
  - cbn [fst snd]. split; [|auto]. split; [discriminate|]. intros Hn. apply checkKeys_ok in Hn. congruence.
Qed.
Theorem C08_recipient : forall C hdr sender recipient sess_ sid ki kiPriv rid ridPriv prev n w p1 p2 p3 p4,
  pub32 sid = Ok p1 -> pub32 sess_ = Ok p2 -> pub32 rid = Ok p3 -> pub32 ki = Ok p4 ->
  let r := fst (rootKeyAgreementRecipient C hdr sender recipient sess_ sid ki kiPriv rid ridPriv prev n w) in
  (r = Ok tt <-> NoDup [hdr; p1; p2; p3; p4]) /\ (r <> Ok tt -> r = Err "msg: reflection attack detected"
     /\ snd (rootKeyAgreementRecipient C hdr sender recipient sess_ sid ki kiPriv rid ridPriv prev n w) = w).
Proof.
  intros C hdr a b se sid ki kip rid ridp prev n w p1 p2 p3 p4 H1 H2 H3 H4 r. subst r.
  unfold rootKeyAgreementRecipient, mbind, lift. rewrite H1, H2, H3, H4.
  destruct (checkKeys_cases hdr p1 p2 p3 p4) as [K|K]; rewrite K.
  - apply checkKeys_ok in K.
    assert (D : p4 <> p1 /\ p4 <> p2 /\ p3 <> p2).
    { repeat match goal with H : NoDup (_ :: _) |- _ => inversion H; clear H; subst end. cbn [In] in *. intuition congruence. }
    destruct D as (D1 & D2 & D3).
    assert (B : forall x y, x <> y -> beq x y = false) by (intros x y Hxy; destruct (beq x y) eqn:E; [apply beq_spec in E; contradiction|reflexivity]).
    unfold ecdh. rewrite !B by assumption. cbn [rbind].
    unfold generateMessageKeys. rewrite keyLoop_spec. unfold storeSession, lenN. rewrite !keysFor_len, N.eqb_refl.
    cbn. split; [tauto|]. intros X; elim X; reflexivity.
  - cbn [fst snd]. split; [|auto]. split; [discriminate|]. intros Hn. apply checkKeys_ok in Hn. congruence.
Qed.
Example C08_ex_reflected : fst (rootKeyAgreementSender toy (dhpub toy (exk 10)) (str "a") (str "b") (initDHKey toy (exk 11)) (exk 11)
   (initDHKey toy (exk 12)) (exk 12) (initDHKey toy (exk 11)) (initDHKey toy (exk 14)) None 3 exW) = Err "msg: reflection attack detected".
Proof. vm_compute; reflexivity. Qed.

Print Assumptions C05_keys_agree.
Print Assumptions C05_keys_present.
Print Assumptions C05_root_hash_agree.
Print Assumptions C06_balanced.
Print Assumptions C06_key_used_once.
Print Assumptions C06_deletion_local.
Print Assumptions C08_sender.
Print Assumptions C08_recipient.
