(* Key agreement steps with well-formed keys, and the first message of a conversation. *)
From Verif Require Import Base Base64Model Base64Proofs CodecModel CodecProofs JsonModel JsonProofs Maps CryptoModel StoreModel KeysModel KeysProofs MsgFormatModel MsgFormatProofs HeaderModel HeaderProofs ProtoModel ProtoProofs.
Local Open Scope N_scope.

Lemma pubKey_cons u k ks : uPubKeys u = k :: ks -> pubKey u = Ok k.
Proof. intros H. unfold pubKey. now rewrite H. Qed.
(* root key of a session between the initiator's session key x and the responder's key y (private keys) *)
Definition rootOf (C : Crypto) (sa x sb y : bytes) (prev : option bytes) : bytes :=
  deriveRootKey C (dh C sa (dhpub C y)) (dh C x (dhpub C y)) (dh C x (dhpub C sb)) prev.
Definition idHash (C : Crypto) (s : bytes) : bytes := b64enc (sha512 C (dhpub C s)).
Lemma keHash_init C p : keHash (initDHKey C p) = hashText C (dhpub C p).
Proof. reflexivity. Qed.
Definition fiveKeys (C : Crypto) (hp sa x sb y : bytes) : Prop := NoDup [hp; dhpub C sa; dhpub C x; dhpub C sb; dhpub C y].
(* the operation that stores a new session for the side with keys own/peer *)
Definition newSess (C : Crypto) (ownS peerS own peer fix_ root : bytes) (n : N) : op :=
  OStoreSession (sessKeyOf C (idHash C ownS) (idHash C peerS) (dhpub C own) (dhpub C peer))
    (b64enc (sha512 C root)) (b64enc (chainAt C root (N.to_nat n)))
    (keysFor C root (dhpub C peer) fix_ (N.to_nat n)) (keysFor C root (dhpub C own) fix_ (N.to_nat n)).
Lemma ecdh_ok C a p o : p <> o -> ecdh C a p o = Ok (dh C a p).
Proof. intros H. unfold ecdh. destruct (beq o p) eqn:E; [|reflexivity]. apply beq_spec in E. congruence. Qed.
Lemma fiveKeys_ne C hp sa x sb y : fiveKeys C hp sa x sb y ->
  dhpub C y <> dhpub C sa /\ dhpub C y <> dhpub C x /\ dhpub C sb <> dhpub C x /\ dhpub C sa <> dhpub C y /\ dhpub C x <> dhpub C y /\ dhpub C x <> dhpub C sb.
Proof.
  unfold fiveKeys. intros K. inversion K as [|? ? _ K1]; subst. inversion K1 as [|? ? N1 K2]; subst. inversion K2 as [|? ? N2 K3]; subst.
  inversion K3 as [|? ? N3 K4]; subst. cbn [In] in *. repeat split; intros E; intuition congruence.
Qed.
Lemma agreeS C hp idA idB x sa y sb prev n w : fiveKeys C hp sa x sb y -> 1 <= n ->
  rootKeyAgreementSender C hp idA idB (initDHKey C x) x (initDHKey C sa) sa (initDHKey C y) (initDHKey C sb) prev n w =
  (Ok tt, step_op w (newSess C sa sb x y (identityFix C idA idB) (rootOf C sa x sb y prev) n)).
Proof.
  intros K Hn. pose proof (fiveKeys_ne _ _ _ _ _ _ K) as (N1 & N2 & N3 & _).
  unfold rootKeyAgreementSender. rewrite !initDHKey_pub32, !lift_bind.
  rewrite (proj2 (checkKeys_ok _ _ _ _ _) K), lift_bind. rewrite !ecdh_ok by assumption. rewrite !lift_bind. cbv beta.
  rewrite generate_eq by exact Hn. cbv iota. reflexivity.
Qed.
Lemma agreeR C hp idA idB x sa y sb prev n w : fiveKeys C hp sa x sb y -> 1 <= n ->
  rootKeyAgreementRecipient C hp idA idB (initDHKey C x) (initDHKey C sa) (initDHKey C y) y (initDHKey C sb) sb prev n w =
  (Ok tt, step_op w (newSess C sb sa y x (identityFix C idA idB) (rootOf C sa x sb y prev) n)).
Proof.
  intros K Hn. pose proof (fiveKeys_ne _ _ _ _ _ _ K) as (_ & _ & _ & N1 & N2 & N3).
  unfold rootKeyAgreementRecipient. rewrite !initDHKey_pub32, !lift_bind.
  rewrite (proj2 (checkKeys_ok _ _ _ _ _) K), lift_bind. rewrite !ecdh_ok by assumption. rewrite !lift_bind. cbv beta.
  rewrite generate_eq by exact Hn. cbv iota.
  unfold rootOf. rewrite (dh_comm C sa y), (dh_comm C x y), (dh_comm C x sb). reflexivity.
Qed.
(* the session as stored by newSess *)
Definition sessAfter (C : Crypto) (own peer fix_ root : bytes) (n : N) : sess :=
  mkSess (b64enc (sha512 C root)) (b64enc (chainAt C root (N.to_nat n))) (keysFor C root (dhpub C peer) fix_ (N.to_nat n))
         (keysFor C root (dhpub C own) fix_ (N.to_nat n)).
Lemma newSess_get C ownS peerS own peer fix_ root n st :
  let sk := sessKeyOf C (idHash C ownS) (idHash C peerS) (dhpub C own) (dhpub C peer) in
  mget sk (sessions st) = None ->
  mget sk (sessions (apply_op (newSess C ownS peerS own peer fix_ root n) st)) = Some (sessAfter C own peer fix_ root n).
Proof. intros sk H. unfold newSess. rewrite apply_store_session. fold sk. rewrite H. reflexivity. Qed.
Lemma sessAfter_ok C own peer fix_ root n :
  sessOk C root (dhpub C own) (dhpub C peer) fix_ (b64enc (sha512 C root)) (N.to_nat n) (sessAfter C own peer fix_ root n).
Proof. apply sessOk_init. Qed.
Lemma numMessageKeys_get sk w s : mget sk (sessions (wStore w)) = Some s -> numMessageKeys sk w = (Ok (lenN (sSend s)), w).
Proof. intros H. unfold numMessageKeys, memSession. rewrite H. reflexivity. Qed.
Lemma getMessageKey_eq sk b i w k : getMessageKeyR sk b i (wStore w) = Ok k -> getMessageKey sk b i w = (Ok k, w).
Proof. intros H. unfold getMessageKey. now rewrite H. Qed.
Lemma keysFor_ne C root pub fix_ n i : i < n -> nthN i (keysFor C root pub fix_ (N.to_nat n)) <> [].
Proof. intros H. rewrite nthN_to_nat, keysFor_nth by lia. apply msgKeyText_nonnil. Qed.
Lemma lenN_keysFor C root pub fix_ n : lenN (keysFor C root pub fix_ (N.to_nat n)) = n.
Proof. unfold lenN. rewrite keysFor_len. lia. Qed.

(* ---- first contact: Encrypt without a session state ---- *)
Record firstEnc (C : Crypto) (a : encArgs) (r : encRnd) (st : store) (sa sb kb nym : bytes) : Prop := {
  fe_from : exists ks, uPubKeys (idUid (eFrom a)) = initDHKey C sa :: ks;
  fe_priv : idEncPriv (eFrom a) = Some sa;
  fe_to : exists ks, uPubKeys (eTo a) = initDHKey C sb :: ks;
  fe_state : eStatus a = StatusReset \/ mget (calcStateKey C (dhpub C sa) (dhpub C sb)) (states st) = None;
  fe_ki : mget (uIdentity (eTo a)) (pubKEs st) = Some (initDHKey C kb, nym);
  fe_new : mget (sessKeyOf C (idHash C sa) (idHash C sb) (dhpub C (rSessPriv r)) (dhpub C kb)) (sessions st) = None;
  fe_keys : fiveKeys C (dhpub C (rHeaderPriv r)) sa (rSessPriv r) sb kb;
  fe_n : 1 <= numKeys (eNumKeys a) }.
Definition ssFirst (C : Crypto) (x kb nym : bytes) : state := mkState 0 0 0 (initDHKey C kb) (initDHKey C x) None None nym true.
Definition addKey (C : Crypto) (x : bytes) (cl : N) : op := OAddSessionKey (keHash (initDHKey C x)) (keJSON (initDHKey C x)) (b64enc x) cl.
Definition encFirstOps (C : Crypto) (a : encArgs) (r : encRnd) (sa sb kb nym : bytes) : list op :=
  [addKey C (rSessPriv r) (eCleanup a);
   newSess C sa sb (rSessPriv r) kb (identityFix C (uIdentity (idUid (eFrom a))) (uIdentity (eTo a)))
     (rootOf C sa (rSessPriv r) sb kb None) (numKeys (eNumKeys a));
   OSetState (calcStateKey C (dhpub C sa) (dhpub C sb)) (ssFirst C (rSessPriv r) kb nym)].
Lemma encState_first C a r w sa sb kb nym : firstEnc C a r (wStore w) sa sb kb nym ->
  encState C a r w = (Ok (nym, ssFirst C (rSessPriv r) kb nym), steps w (encFirstOps C a r sa sb kb nym)).
Proof.
  intros [[ks F] P [ks' T] S K _ V Hn]. unfold encState. rewrite (pubKey_cons _ _ _ F), (pubKey_cons _ _ _ T). do 4 rewrite ?lift_bind, ?initDHKey_pub32.
  match goal with |- mbind ?m ?f w = _ => assert (E : m w = (Ok None, w)) end.
  { destruct (eStatus a =? StatusReset) eqn:E; [reflexivity|].
    destruct S as [S|S]; [rewrite S in E; discriminate|]. unfold getSessionState, ask. rewrite S. reflexivity. }
  erewrite bind_ok by exact E.
  cbv iota. erewrite bind_ok by (unfold getPublicKeyEntry; rewrite K; reflexivity). cbv beta iota.
  erewrite bind_ok by reflexivity. cbv beta. unfold priv32. rewrite P. cbn [keFunc initDHKey]. rewrite beq_refl, lift_bind.
  erewrite bind_ok by (apply agreeS; assumption). cbv beta.
  erewrite bind_ok by reflexivity. reflexivity.
Qed.
Lemma encKey_at C a ss w sa sb x y s root n ks ks' :
  uPubKeys (idUid (eFrom a)) = initDHKey C sa :: ks -> uPubKeys (eTo a) = initDHKey C sb :: ks' ->
  stSenderPub ss = initDHKey C x -> stRecipTemp ss = initDHKey C y ->
  let sk := sessKeyOf C (idHash C sa) (idHash C sb) (dhpub C x) (dhpub C y) in
  let fix_ := identityFix C (uIdentity (idUid (eFrom a))) (uIdentity (eTo a)) in
  mget sk (sessions (wStore w)) = Some s ->
  sessOk C root (dhpub C x) (dhpub C y) fix_ (b64enc (sha512 C root)) n s ->
  (N.to_nat (stMsgCount ss) < n)%nat -> nthN (stMsgCount ss) (sSend s) <> [] ->
  encKey C a ss w = (Ok (sk, msgKeyVal C (chainAt C root (N.to_nat (stMsgCount ss))) (dhpub C y) fix_), w).
Proof.
  intros F T X Y sk fix_ G O L NE. unfold encKey. rewrite (pubKey_cons _ _ _ F), (pubKey_cons _ _ _ T), X, Y. rewrite !lift_bind. rewrite !keHash_init.
  fold (sessKeyOf C (hashText C (dhpub C sa)) (hashText C (dhpub C sb)) (dhpub C x) (dhpub C y)). fold sk.
  erewrite bind_ok by (apply numMessageKeys_get; exact G). cbv beta.
  destruct (N.leb_spec (lenN (sSend s)) (stMsgCount ss)) as [B|B].
  { pose proof (so_slen _ _ _ _ _ _ _ _ O). unfold lenN in B. lia. }
  erewrite bind_ok by reflexivity. cbv beta.
  erewrite bind_ok by (apply getMessageKey_eq; eapply (getMessageKeyR_sessOk _ _ _ _ _ _ _ _ _ _ true); eassumption). reflexivity.
Qed.

(* ---- first contact: Decrypt of a header for an unknown session ---- *)
Record firstDec (C : Crypto) (ra : decArgs) (i : ident) (hp : bytes) (h : header) (st : store) (sa x sb kb : bytes) : Prop := {
  fd_to : exists ks, uPubKeys (idUid i) = initDHKey C sb :: ks;
  fd_priv : idEncPriv i = Some sb;
  fd_sender : hSenderPub h = initDHKey C sa;
  fd_sess : hSessPub h = initDHKey C x;
  fd_temp : hRecipTempHash h = keHash (initDHKey C kb);
  fd_next : hNext h = None;
  fd_count : hMsgCount h = 0;
  fd_state : mget (calcStateKey C (dhpub C sb) (dhpub C sa)) (states st) = None;
  fd_ki : mget (keHash (initDHKey C kb)) (privKEs st) = Some (initDHKey C kb, kb);
  fd_new : mget (sessKeyOf C (idHash C sb) (idHash C sa) (dhpub C kb) (dhpub C x)) (sessions st) = None;
  fd_keys : fiveKeys C hp sa x sb kb;
  fd_n : 1 <= numKeys (dNumKeys ra) }.
Definition ssReply (C : Crypto) (x kb next : bytes) (nym : bytes) : state :=
  mkState 0 0 0 (initDHKey C x) (initDHKey C kb) (Some (initDHKey C next)) None nym false.
Definition decFirstOps (C : Crypto) (ra : decArgs) (i : ident) (h : header) (sa x sb kb : bytes) : list op :=
  [newSess C sb sa kb x (identityFix C (hSender h) (uIdentity (idUid i))) (rootOf C sa x sb kb None) (numKeys (dNumKeys ra));
   addKey C (dPriv ra) (dCleanup ra);
   OSetState (calcStateKey C (dhpub C sb) (dhpub C sa)) (ssReply C x kb (dPriv ra) (hNym h))].
Lemma decState_first C ra i hp h w sa x sb kb : firstDec C ra i hp h (wStore w) sa x sb kb ->
  decState C ra hp i h w = (Ok (initDHKey C sb, sessKeyOf C (idHash C sb) (idHash C sa) (dhpub C kb) (dhpub C x),
                                Some (ssReply C x kb (dPriv ra) (hNym h))), steps w (decFirstOps C ra i h sa x sb kb)).
Proof.
  intros [[ks T] P S X Tm Nx Cn St Ki Nw V Hn]. unfold decState. rewrite (pubKey_cons _ _ _ T), S, X, Tm. do 4 rewrite ?lift_bind, ?initDHKey_pub32.
  erewrite bind_ok by (unfold getSessionState, ask; rewrite St; reflexivity). cbv beta.
  rewrite !keHash_init.
  fold (sessKeyOf C (hashText C (dhpub C sb)) (hashText C (dhpub C sa)) (dhpub C kb) (dhpub C x)).
  change (hashText C (dhpub C sb)) with (idHash C sb). change (hashText C (dhpub C sa)) with (idHash C sa).
  set (sk := sessKeyOf C (idHash C sb) (idHash C sa) (dhpub C kb) (dhpub C x)) in *.
  erewrite bind_ok by (unfold hasSession, ask, mhas; rewrite Nw; reflexivity). cbv beta iota.
  unfold decUnknown. rewrite Tm, S, X, Nx.
  match goal with |- mbind ?m ?f w = _ => assert (E : m w = (Ok (Some (ssReply C x kb (dPriv ra) (hNym h))), steps w (decFirstOps C ra i h sa x sb kb))) end.
  { erewrite bind_ok by (unfold getPrivateKeyEntry, ask; rewrite Ki; reflexivity). cbv beta iota.
    unfold priv32. rewrite P. cbn [keFunc initDHKey]. rewrite beq_refl, lift_bind.
    erewrite bind_ok by (apply agreeR; assumption). cbv beta.
    erewrite bind_ok by reflexivity. erewrite bind_ok by reflexivity. erewrite bind_ok by reflexivity. reflexivity. }
  erewrite bind_ok by exact E. reflexivity.
Qed.
Lemma decKey_at C i ke h sk oss nk w root own peer fix_ rh n s :
  mget sk (sessions (wStore w)) = Some s -> sessOk C root own peer fix_ rh n s ->
  (N.to_nat (hMsgCount h) < n)%nat -> nthN (hMsgCount h) (sRecv s) <> [] ->
  decKey C i ke h sk oss nk w = (Ok (msgKeyVal C (chainAt C root (N.to_nat (hMsgCount h))) own fix_), w).
Proof.
  intros G O L NE. unfold decKey. erewrite bind_ok by (apply numMessageKeys_get; exact G). cbv beta.
  destruct (N.leb_spec (lenN (sSend s)) (hMsgCount h)) as [B|B].
  { pose proof (so_slen _ _ _ _ _ _ _ _ O). unfold lenN in B. lia. }
  erewrite bind_ok by reflexivity. cbv beta. apply getMessageKey_eq. eapply (getMessageKeyR_sessOk _ _ _ _ _ _ _ _ _ _ false); eassumption.
Qed.
