(* The message protocol as doc/messages.md describes it: C122, C123, C124, C125, C126, C127. *)
From Verif Require Import Base Base64Model Base64Proofs CodecModel JsonModel JsonProofs Maps CryptoModel StoreModel KeysModel KeysProofs MsgFormatModel MsgFormatProofs HeaderModel HeaderProofs ProtoModel ProtoProofs ProtoFirst SessState SessCount ConvModel ConvSteps ConvInv ConvProofs ConvSend ConvRecv ConvMain ConvEnabled ConvTrack ConvDyn ConvRun ConvToy ConvExample ConvCross HashChainModel UidProofs.
Local Open Scope N_scope.

(* ------------------------------------------------------------------ *)
(* doc/messages.md, sections 2 and 4.  The document does not say that a chain key is cut to 32 bytes. *)
Definition docRoot (C : Crypto) (t1 t2 t3 : bytes) (previous : option bytes) : bytes :=
  hkdf512 C (t1 ++ t2 ++ t3 ++ match previous with Some h => h | None => repeat 0 64 end) 32.
Definition docFix (C : Crypto) (a b : bytes) : bytes := sha512 C (if bltb b a then b ++ a else a ++ b).
Fixpoint docChain (C : Crypto) (root : bytes) (i : nat) : bytes :=
  match i with O => root | S i' => takeN 32 (hmac512 C (docChain C root i') (str "CHAIN")) end.
Definition docKey (C : Crypto) (root pub fix_ : bytes) (i : nat) : bytes :=
  hmac512 C (docChain C root i) (str "MESSAGE" ++ sha512 C pub ++ fix_).
Definition docHash (C : Crypto) (pub : bytes) : bytes := b64enc (sha512 C pub).
(* the name under which a party stores a session: both identity keys, then both session keys, its own first *)
Definition docName (C : Crypto) (ownId peerId own peer : bytes) : bytes :=
  b64enc (sha512 C (docHash C ownId ++ docHash C peerId ++ docHash C own ++ docHash C peer)).
(* a session of n keys: messages are sent with keys for [peer], received with keys for [own] *)
Record docSession (C : Crypto) (root own peer fix_ : bytes) (n : N) (s : sess) : Prop := {
  ds_root : b64dec (sRoot s) = Some (sha512 C root);
  ds_chain : b64dec (sChain s) = Some (docChain C root (N.to_nat n));
  ds_sends : lenN (sSend s) = n;
  ds_recvs : lenN (sRecv s) = n;
  ds_send : forall i, i < n -> b64dec (nthN i (sSend s)) = Some (docKey C root peer fix_ (N.to_nat i));
  ds_recv : forall i, i < n -> b64dec (nthN i (sRecv s)) = Some (docKey C root own fix_ (N.to_nat i)) }.

Lemma chain_doc C root i : chainAt C root i = docChain C root i.
Proof. induction i as [|i IH]; cbn [chainAt docChain]; [reflexivity|]. unfold nextChain. now rewrite IH. Qed.
Lemma fix_doc C a b : identityFix C a b = docFix C a b.
Proof.
  unfold identityFix, docFix. destruct (bltb a b) eqn:E1.
  - rewrite (bltb_asym _ _ E1). reflexivity.
  - destruct (bltb b a) eqn:E2; [reflexivity|]. destruct (bltb_total a b) as [Q|[Q|Q]]; [congruence| |congruence]. rewrite Q. reflexivity.
Qed.
Lemma doc_session C root own peer fix_ n : wfb root -> docSession C root (dhpub C own) (dhpub C peer) fix_ n (sessAfter C own peer fix_ root n).
Proof.
  intros W. constructor; cbn [sessAfter sRoot sChain sSend sRecv].
  - apply b64dec_enc, sha512_wf.
  - rewrite chain_doc. apply b64dec_enc. rewrite <- chain_doc. now apply chainAt_wf.
  - apply lenN_keysFor.
  - apply lenN_keysFor.
  - intros i H. rewrite nthN_to_nat, keysFor_nth by lia. rewrite msgKeyText_dec, chain_doc. reflexivity.
  - intros i H. rewrite nthN_to_nat, keysFor_nth by lia. rewrite msgKeyText_dec, chain_doc. reflexivity.
Qed.
(* C122: the sender's side of a new session with x its session key, y the recipient's key, sa and sb the identity keys. *)
Theorem C122_sender : forall C hp idA idB x sa y sb prev n w,
  NoDup [hp; dhpub C sa; dhpub C x; dhpub C sb; dhpub C y] -> 1 <= n ->
  let name := docName C (dhpub C sa) (dhpub C sb) (dhpub C x) (dhpub C y) in
  let root := docRoot C (dh C sa (dhpub C y)) (dh C x (dhpub C y)) (dh C x (dhpub C sb)) prev in
  mget name (sessions (wStore w)) = None ->
  exists w' s, rootKeyAgreementSender C hp idA idB (initDHKey C x) x (initDHKey C sa) sa (initDHKey C y) (initDHKey C sb) prev n w = (Ok tt, w') /\
    mget name (sessions (wStore w')) = Some s /\ docSession C root (dhpub C x) (dhpub C y) (docFix C idA idB) n s /\
    forall k, k <> name -> mget k (sessions (wStore w')) = mget k (sessions (wStore w)).
Proof.
  intros C hp idA idB x sa y sb prev n w ND Hn name root G.
  exists (step_op w (newSess C sa sb x y (identityFix C idA idB) root n)), (sessAfter C x y (identityFix C idA idB) root n).
  split; [apply (agreeS C hp idA idB x sa y sb prev n w ND Hn)|]. split; [|split].
  - exact (newSess_get C sa sb x y (identityFix C idA idB) root n (wStore w) G).
  - rewrite <- fix_doc. apply doc_session. apply hkdf512_wf.
  - intros k NE. cbn [step_op wStore newSess apply_op]. fold (idHash C sa). destruct (mget _ (sessions (wStore w))); cbn [sessions]; apply mget_mset_other; exact NE.
Qed.
(* The recipient's side gets the same root key from its own private keys, and the two lists of keys the other way round. *)
Theorem C122_recipient : forall C hp idA idB x sa y sb prev n w,
  NoDup [hp; dhpub C sa; dhpub C x; dhpub C sb; dhpub C y] -> 1 <= n ->
  let name := docName C (dhpub C sb) (dhpub C sa) (dhpub C y) (dhpub C x) in
  let root := docRoot C (dh C sa (dhpub C y)) (dh C x (dhpub C y)) (dh C x (dhpub C sb)) prev in
  mget name (sessions (wStore w)) = None ->
  exists w' s, rootKeyAgreementRecipient C hp idA idB (initDHKey C x) (initDHKey C sa) (initDHKey C y) y (initDHKey C sb) sb prev n w = (Ok tt, w') /\
    mget name (sessions (wStore w')) = Some s /\ docSession C root (dhpub C y) (dhpub C x) (docFix C idA idB) n s /\
    forall k, k <> name -> mget k (sessions (wStore w')) = mget k (sessions (wStore w)).
Proof.
  intros C hp idA idB x sa y sb prev n w ND Hn name root G.
  exists (step_op w (newSess C sb sa y x (identityFix C idA idB) root n)), (sessAfter C y x (identityFix C idA idB) root n).
  split; [apply (agreeR C hp idA idB x sa y sb prev n w ND Hn)|]. split; [|split].
  - exact (newSess_get C sb sa y x (identityFix C idA idB) root n (wStore w) G).
  - rewrite <- fix_doc. apply doc_session. apply hkdf512_wf.
  - intros k NE. cbn [step_op wStore newSess apply_op]. destruct (mget _ (sessions (wStore w))); cbn [sessions]; apply mget_mset_other; exact NE.
Qed.
(* Encrypt keeps the state of the conversation under the hash of both identity keys, the sender's first. *)
Theorem C122_state_name : forall C a r st nym w' sa sb ks ks', run (encrypt C a r) st = (Ok nym, w') ->
  uPubKeys (idUid (eFrom a)) = initDHKey C sa :: ks -> uPubKeys (eTo a) = initDHKey C sb :: ks' ->
  mget (b64enc (sha512 C (dhpub C sa ++ dhpub C sb))) (states (wStore w')) <> None.
Proof.
  intros C a r st nym w' sa sb ks ks' H F T. apply encrypt_ok in H as (ss & w1 & w2 & hp & sk & mk & body & fk & tk & E).
  pose proof (eo_from _ _ _ _ _ _ _ _ _ _ _ _ _ _ _ E) as EF. pose proof (eo_to _ _ _ _ _ _ _ _ _ _ _ _ _ _ _ E) as ET.
  rewrite (pubKey_cons _ _ _ F) in EF. rewrite (pubKey_cons _ _ _ T) in ET. cbn [rbind] in EF, ET. rewrite initDHKey_pub32 in EF, ET. apply Ok_inj in EF, ET. subst fk tk.
  rewrite (eo_end _ _ _ _ _ _ _ _ _ _ _ _ _ _ _ E). cbn [steps fold_left]. rewrite setState_get. discriminate.
Qed.

(* ------------------------------------------------------------------ *)
(* doc/messages.md, sections 1, 5 and 7 *)
Definition docTwo (n : N) : bytes := [n / 256; n mod 256].
Definition docPacket (ty cnt : N) (inner : bytes) : bytes := [ty] ++ docTwo (lenN inner) ++ [0; 0; 0; cnt] ++ inner.
Definition docInner (ty more : N) (data : bytes) : bytes := [ty] ++ docTwo (lenN data) ++ [more; 0] ++ data.
Definition docPre (pub : bytes) : bytes := [0; 1] ++ [0; 28] ++ str "CURVE25519 XSALSA20 POLY1305" ++ [0; 32] ++ pub.
Definition docBody (C : Crypto) (mk iv content : bytes) (sigKey : option bytes) (pad : bytes) : bytes :=
  let cryptoKey := takeN 32 (hkdf512 C mk 64) in
  let hmacKey := dropN 32 (hkdf512 C mk 64) in
  let plain1 := docInner (match sigKey with Some _ => 6 | None => 2 end) 0 content in
  let plain2 := match sigKey with Some k => docInner 8 1 (edsign C k (sha512 C content)) ++ docInner 1 0 pad | None => docInner 1 0 pad end in
  let cipher := xorb (plain1 ++ plain2) (ctr C cryptoKey iv (lenN plain1 + lenN plain2)) in
  let covered := docPacket 4 2 iv ++ docPacket 16 3 (takeN (lenN plain1) cipher) ++ docPacket 16 4 (dropN (lenN plain1) cipher) ++ [8; 0; 64; 0; 0; 0; 5] in
  covered ++ hmac512 C hmacKey covered.

Lemma be2 n : n < 2 ^ 16 -> be 2 n = docTwo n.
Proof. intros H. cbn [be app]. unfold docTwo. rewrite (N.mod_small (n / 256)); [reflexivity|]. apply N.div_lt_upper_bound; lia. Qed.
Lemma outer_doc ty cnt i : ty < 256 -> cnt < 256 -> lenN i < 2 ^ 16 -> outer_write (newOuterHeader ty cnt i) true = docPacket ty cnt i.
Proof.
  intros H1 H2 H3. unfold outer_write, newOuterHeader, docPacket. cbn [oType oPLen oCount oInner]. rewrite (N.mod_small (lenN i)) by exact H3. rewrite be2 by exact H3.
  cbn [be app]. rewrite (N.mod_small ty) by exact H1. rewrite (N.mod_small cnt) by exact H2. rewrite (N.div_small cnt 256) by exact H2.
  rewrite !N.div_0_l, !N.mod_0_l by discriminate. reflexivity.
Qed.
Lemma inner_doc ty (more : bool) d : ty < 256 -> lenN d < 2 ^ 16 -> inner_write (newInnerHeader ty more d) = docInner ty (if more then 1 else 0) d.
Proof.
  intros H1 H2. unfold inner_write, newInnerHeader, docInner. cbn [iType iPLen iMore iSkip iContent]. rewrite (N.mod_small (lenN d)) by exact H2. rewrite be2 by exact H2.
  cbn [be app]. rewrite (N.mod_small ty) by exact H1. destruct more; reflexivity.
Qed.
Lemma body_doc C mk iv content sigKey pad body : lenN content <= 41691 -> lenN iv = 16 -> sealBody C mk iv content sigKey pad = Ok body ->
  exists p, lenN p = match sigKey with Some _ => 41691 - lenN content | None => 41760 - lenN content end /\ body = docBody C mk iv content sigKey p.
Proof.
  intros L LI S. apply sealBody_eq in S as (p & LP & ->); [|exact L]. exists p. split; [exact LP|]. cbv zeta.
  set (p1 := plain1 content sigKey). set (p2 := plain2 C content sigKey p). unfold docBody.
  assert (E1 : docInner (match sigKey with Some _ => 6 | None => 2 end) 0 content = p1).
  { unfold p1, plain1. destruct sigKey; symmetry; apply (inner_doc _ false); (reflexivity || lia). }
  assert (E2 : match sigKey with Some k => docInner 8 1 (edsign C k (sha512 C content)) ++ docInner 1 0 p | None => docInner 1 0 p end = p2).
  { unfold padLen in LP. unfold p2, plain2. destruct sigKey as [k|].
    - rewrite (inner_doc signatureType true) by (reflexivity || (rewrite edsign_len; reflexivity)). rewrite (inner_doc paddingType false) by (reflexivity || lia). reflexivity.
    - rewrite (inner_doc paddingType false) by (reflexivity || lia). reflexivity. }
  rewrite E1, E2. clear E1 E2. cbv zeta. set (ck := takeN 32 (hkdf512 C mk 64)). set (ks := ctr C ck iv (lenN p1 + lenN p2)).
  pose proof (len_plain1 content sigKey) as L1. fold p1 in L1. pose proof (len_plain2 C content sigKey p L LP) as L2. fold p2 in L2.
  assert (LK : lenN ks = lenN p1 + lenN p2) by apply ctr_len.
  assert (X1 : lenN (xorb p1 (takeN (lenN p1) ks)) = lenN p1) by (apply xorb_len; rewrite lenN_takeN; lia).
  assert (X2 : lenN (xorb p2 (dropN (lenN p1) ks)) = lenN p2) by (apply xorb_len; rewrite lenN_dropN; lia).
  rewrite xorb_app by lia. rewrite (takeN_app _ _ (lenN p1) X1), (dropN_app _ _ (lenN p1) X1).
  unfold bodyHead, bodyMac, bodySetup, bodyEnc1, bodyEnc2. cbv zeta. fold ck. fold ks.
  rewrite !outer_doc by (reflexivity || lia). change (outer_write (mkOuter hmacPacket 64 5 []) false) with [8; 0; 64; 0; 0; 0; 5].
  match goal with |- _ ++ outer_write (mkOuter hmacPacket 64 5 ?m) true = _ => change (outer_write (mkOuter hmacPacket 64 5 m) true) with ([8; 0; 64; 0; 0; 0; 5] ++ m) end.
  rewrite <- !app_assoc. reflexivity.
Qed.
(* C123: every message Encrypt writes is laid out as documented. *)
Theorem C123_layout : forall C a r st nym w', run (encrypt C a r) st = (Ok nym, w') -> lenN (rIv r) = 16 -> lenN (rNonce r) = 24 ->
  let content := if eStatus a =? 0 then eContent a else [] in
  exists rpub box mk pad, publicKey (eTo a) = Ok rpub /\ (exists text, box = boxseal C text (rNonce r) rpub (rHeaderPriv r)) /\ lenN box = 7168 /\
    lenN pad = match eSigKey a with Some _ => 41691 - lenN content | None => 41760 - lenN content end /\
    wOut w' = b64enc (docPacket 1 0 (docPre (dhpub C (rHeaderPriv r))) ++ docPacket 2 1 (rNonce r ++ [28; 0] ++ box) ++
                      docBody C mk (rIv r) content (eSigKey a) pad) /\
    lenN (wOut w') = 65536.
Proof.
  intros C a r st nym w' H LI LN content. unfold run in H. apply encrypt_ok in H as (ss & w1 & w2 & hp & sk & mk & body & fk & tk & E).
  pose proof (encOk_len _ _ _ _ _ _ _ _ _ _ _ _ _ _ _ E LI) as LH.
  destruct (encHeader_inv _ _ _ _ _ (eo_header _ _ _ _ _ _ _ _ _ _ _ _ _ _ _ E)) as (h & rpub & HH & HRP & HHP).
  apply headerPacket_inv in HHP as [-> HB]. cbv zeta in HB. set (box := boxseal C (jprint (headerToJson h)) (rNonce r) rpub (rHeaderPriv r)) in *.
  rewrite !lenN_app, lenN_be in LH. assert (LB : lenN box = 7168) by (rewrite N.mod_small in HB; lia).
  destruct (body_doc _ _ _ _ _ _ _ (eo_len _ _ _ _ _ _ _ _ _ _ _ _ _ _ _ E) LI (eo_body _ _ _ _ _ _ _ _ _ _ _ _ _ _ _ E)) as (pad & LP & EB).
  exists rpub, box, mk, pad. split; [exact HRP|]. split; [eexists; reflexivity|]. split; [exact LB|]. split; [exact LP|].
  pose proof (encrypt_out _ _ _ _ _ _ _ _ _ _ _ _ _ _ _ E) as O. cbn [wOut app] in O. rewrite O. split; [|apply (eo_size _ _ _ _ _ _ _ _ _ _ _ _ _ _ _ E)].
  f_equal. unfold rawMsg. rewrite EB. rewrite !outer_doc; [|reflexivity|reflexivity| |reflexivity|reflexivity|].
  - f_equal. f_equal. unfold preBytes, preheader_write, newPreHeader, docPre. cbn [pVersion pLenSuite pSuite pLenPub pPub]. rewrite dhpub_len. reflexivity.
  - rewrite !lenN_app, lenN_be. lia.
  - rewrite lenN_preBytes. reflexivity.
Qed.

(* ------------------------------------------------------------------ *)
(* doc/messages.md, section 2.1: the text that is sealed in the second packet *)
Definition docHeader (C : Crypto) (from to : uidMsg) (fromKey toKey : keyEntry) (ss : state) (nym keychain : bytes) (status : N) (pad : bytes) : bytes :=
  jprint (JObj [(str "Ciphersuite", JStr (str "NACL HKDF AES256-CTR SHA512-HMAC ED25519 ECDHE25519"));
    (str "RecipientPubHash", JStr (keHash toKey)); (str "RecipientTempHash", JStr (keHash (stRecipTemp ss)));
    (str "SenderIdentity", JStr (uIdentity from)); (str "SenderSessionPub", keToJson (stSenderPub ss));
    (str "SenderIdentityPubHash", JStr (keHash fromKey)); (str "SenderIdentityPub", keToJson fromKey);
    (str "NextSenderSessionPub", match stNextSender ss with Some k => keToJson k | None => JNull end);
    (str "NextRecipientSessionPubSeen", match stNextSeen ss with Some k => keToJson k | None => JNull end);
    (str "NymAddress", JStr nym); (str "MaxDelay", JN 0); (str "SenderSessionCount", JN (stSessCount ss)); (str "SenderMessageCount", JN (stMsgCount ss));
    (str "SenderUID", JStr (jprint (uidToJson from))); (str "SenderLastKeychainHash", JStr keychain); (str "Status", JN status); (str "Padding", JStr pad)]).
(* C124: the header of a message describes the state of the session that Encrypt leaves, except that the message is counted. *)
Theorem C124_header : forall C a r st nym w' sa sb ks ks', run (encrypt C a r) st = (Ok nym, w') -> lenN (rNonce r) = 24 -> lenN (rIv r) = 16 ->
  uPubKeys (idUid (eFrom a)) = initDHKey C sa :: ks -> uPubKeys (eTo a) = initDHKey C sb :: ks' ->
  exists ss pad rest, mget (b64enc (sha512 C (dhpub C sa ++ dhpub C sb))) (states (wStore w')) =
      Some (mkState (stSessCount ss) (u64 (stMsgCount ss + 1)) (stMaxRecv ss) (stRecipTemp ss) (stSenderPub ss) (stNextSender ss) (stNextSeen ss) (stNym ss) (stKeyInit ss)) /\
    wOut w' = b64enc (docPacket 1 0 (docPre (dhpub C (rHeaderPriv r))) ++
      docPacket 2 1 (rNonce r ++ [28; 0] ++ boxseal C (docHeader C (idUid (eFrom a)) (eTo a) (initDHKey C sa) (initDHKey C sb) ss (eNym a) (eKeychain a) (eStatus a) pad)
                                                     (rNonce r) (dhpub C sb) (rHeaderPriv r)) ++ rest).
Proof.
  intros C a r st nym w' sa sb ks ks' H LN LI F T. unfold run in H. apply encrypt_ok in H as (ss & w1 & w2 & hp & sk & mk & body & fk & tk & E).
  pose proof (encOk_len _ _ _ _ _ _ _ _ _ _ _ _ _ _ _ E LI) as LH.
  pose proof (eo_from _ _ _ _ _ _ _ _ _ _ _ _ _ _ _ E) as EF. pose proof (eo_to _ _ _ _ _ _ _ _ _ _ _ _ _ _ _ E) as ET.
  rewrite (pubKey_cons _ _ _ F) in EF. rewrite (pubKey_cons _ _ _ T) in ET. cbn [rbind] in EF, ET. rewrite initDHKey_pub32 in EF, ET. apply Ok_inj in EF, ET. subst fk tk.
  destruct (encHeader_inv _ _ _ _ _ (eo_header _ _ _ _ _ _ _ _ _ _ _ _ _ _ _ E)) as (h & rpub & HH & HRP & HHP).
  assert (RP : rpub = dhpub C sb).
  { unfold publicKey in HRP. rewrite (pubKey_cons _ _ _ T) in HRP. cbn [rbind initDHKey kePub] in HRP. rewrite b64dec_enc in HRP by apply dhpub_wf. rewrite dhpub_len in HRP. now apply Ok_inj in HRP. }
  unfold hdrOf in HH. apply newHeader_inv in HH as (tk & tks & fk & fks & pad & _ & Ht & Hf & _ & _ & _ & EH & _ & _).
  rewrite T in Ht. rewrite F in Hf. injection Ht as <- <-. injection Hf as <- <-.
  apply headerPacket_inv in HHP as [-> HB]. cbv zeta in HB. exists ss, pad, body. split.
  { rewrite (eo_end _ _ _ _ _ _ _ _ _ _ _ _ _ _ _ E). cbn [steps fold_left]. rewrite setState_get. reflexivity. }
  pose proof (encrypt_out _ _ _ _ _ _ _ _ _ _ _ _ _ _ _ E) as O. cbn [wOut app] in O. rewrite O. f_equal. unfold rawMsg.
  rewrite !outer_doc; [|reflexivity|reflexivity| |reflexivity|reflexivity|].
  - rewrite RP, EH. f_equal. unfold preBytes, preheader_write, newPreHeader, docPre. cbn [pVersion pLenSuite pSuite pLenPub pPub]. rewrite dhpub_len. reflexivity.
  - lia.
  - rewrite lenN_preBytes. reflexivity.
Qed.
(* A key entry as uid/keyentry.go describes it, for a Diffie-Hellman key *)
Definition docDHKey (C : Crypto) (k : keyEntry) : Prop :=
  keSuite k = str "NACL HKDF AES256-CTR SHA512-HMAC ED25519 ECDHE25519" /\ keFunc k = str "ECDHE25519" /\
  exists pk, b64dec (kePub k) = Some pk /\ lenN pk = 32 /\ b64dec (keHash k) = Some (sha512 C pk).
Lemma verifyDH_doc C k e : verifyDH C k e = Ok tt -> docDHKey C k.
Proof.
  unfold verifyDH. intros H. apply rbind_ok in H as ([] & V & H). destruct (beq (keFunc k) fECDHE) eqn:B; [|discriminate H]. apply beq_spec in B.
  unfold keVerify in V. destruct (beq (keSuite k) DefaultCiphersuite) eqn:S; cbn [negb] in V; [|discriminate V]. apply beq_spec in S.
  destruct (negb (beq (keFunc k) (str "ED25510")) && negb (beq (keFunc k) fECDHE)); [discriminate V|].
  destruct (b64dec (keHash k)) as [h|] eqn:H1; [|discriminate V]. destruct (lenN h =? 64); cbn [negb] in V; [|discriminate V].
  destruct (b64dec (kePub k)) as [pk|] eqn:H2; [|discriminate V]. destruct (N.eqb_spec (lenN pk) 32) as [L|L]; cbn [negb] in V; [|discriminate V].
  destruct (beq (sha512 C pk) h) eqn:Q; cbn [negb] in V; [|discriminate V]. apply beq_spec in Q. subst h.
  split; [exact S|]. split; [exact B|]. exists pk. auto.
Qed.
Lemma headerOfJson_status v h : headerOfJson v = Some h -> hStatus h < 256 /\ hSessCount h < 2 ^ 64 /\ hMsgCount h < 2 ^ 64.
Proof.
  unfold headerOfJson. intros H.
  repeat match type of H with
  | match dec_uint ?b ?o with Some _ => _ | None => None end = Some _ => let E := fresh "E" in destruct (dec_uint b o) eqn:E; [apply dec_uint_bound in E|discriminate H]
  | match ?o with Some _ => _ | None => None end = Some _ => destruct o; [|discriminate H]
  end.
  injection H as <-. cbn [hStatus hSessCount hMsgCount]. auto.
Qed.
(* What Decrypt knows about a header that it has read: every key in it is a Diffie-Hellman key that matches its hash. *)
Theorem C124_verified : forall C ra msg hp i h s, readsHeader C ra msg hp i h s ->
  docDHKey C (hSessPub h) /\ docDHKey C (hSenderPub h) /\ (forall k, hNext h = Some k -> docDHKey C k) /\ (forall k, hSeen h = Some k -> docDHKey C k) /\
  hStatus h < 256 /\ hSessCount h < 2 ^ 64 /\ hMsgCount h < 2 ^ 64.
Proof.
  intros C ra msg hp i h s (raw & pre & s0 & _ & _ & D). unfold decHeader in D. apply rbind_ok in D as ([ph r1] & _ & D).
  destruct (negb (pLenPub ph =? 32)); [discriminate D|]. apply rbind_ok in D as ([o s1] & _ & D). apply rbind_ok in D as ([i' h'] & R & D).
  apply Ok_inj in D. apply pair_inj in D as [D _]. apply pair_inj in D as [D <-]. clear D.
  unfold readHeader in R. apply rbind_ok in R as ([nonce q1] & _ & R). apply rbind_ok in R as ([len q2] & _ & R). apply rbind_ok in R as ([box q3] & _ & R).
  apply rbind_ok in R as ([j jsn] & _ & R). destruct (jparse jsn) as [v|]; [|discriminate R]. destruct (headerOfJson v) as [h0|] eqn:HJ; [|discriminate R].
  apply rbind_ok in R as ([] & V & R). apply Ok_inj in R. apply pair_inj in R as [_ ->].
  unfold headerVerify in V. apply rbind_ok in V as ([] & V1 & V). apply rbind_ok in V as ([] & V2 & V). apply rbind_ok in V as ([] & V3 & V4).
  split; [eapply verifyDH_doc, V1|]. split; [eapply verifyDH_doc, V2|].
  split; [intros k Q; rewrite Q in V3; eapply verifyDH_doc, V3|]. split; [intros k Q; rewrite Q in V4; eapply verifyDH_doc, V4|].
  exact (headerOfJson_status _ _ HJ).
Qed.

(* ------------------------------------------------------------------ *)
(* C125: a recipient of a reset message resets the session and uses the one the sender has started (section 3).  Full statement (false): the
   recipient's next message is one that the sender of the reset message can decrypt.  Decrypt does not look at the status of a message. *)
(* A message of an unknown session, whatever its status, does not change a state that was not made from a KeyInit key of the peer. *)
Theorem C125_ignored : forall C ra msg w x w' hp i h s ke rp sp ss,
  receive C ra msg w = (Ok x, w') -> readsHeader C ra msg hp i h s -> pubKey (idUid i) = Ok ke -> pub32 ke = Ok rp -> pub32 (hSenderPub h) = Ok sp ->
  mget (b64enc (sha512 C (rp ++ sp))) (states (wStore w)) = Some ss -> stKeyInit ss = false ->
  mget (calcKey C (keHash ke) (keHash (hSenderPub h)) (hRecipTempHash h) (keHash (hSessPub h))) (sessions (wStore w)) = None ->
  mget (b64enc (sha512 C (rp ++ sp))) (states (wStore w')) = Some ss.
Proof.
  intros C ra msg w x w' hp i h s ke rp sp ss R RH K1 K2 K3 S KI U. rewrite (receive_reads _ _ _ _ _ _ _ _ RH) in R. apply mbind_ok in R as ([[ke' sk] oss] & w1 & D & R).
  pose proof (quiet _ _ _ _ (rest_quiet C ra i h s _) R) as Q. rewrite Q. destruct (decState_track _ _ _ _ _ _ _ _ _ _ D) as (key & stored & (ke2 & rp2 & sp2 & A1 & A2 & A3 & A4 & A5) & _ & T).
  cbv zeta in T. rewrite K1 in A1. apply Ok_inj in A1. subst ke2. rewrite K2 in A2. apply Ok_inj in A2. subst rp2. rewrite K3 in A3. apply Ok_inj in A3. subst sp2.
  destruct T as (T1 & T2 & _). unfold calcStateKey in A4. rewrite A4 in T1, T2. rewrite T2, T1, S, A5. unfold mhas. rewrite U. cbn [after]. unfold afterUnknown. rewrite KI. cbn [andb].
  destruct (option_map fst _); reflexivity.
Qed.
(* Without the session and without the KeyInit key a message cannot be decrypted. *)
Theorem C125_unreadable : forall C ra msg w hp i h s ke, readsHeader C ra msg hp i h s -> pubKey (idUid i) = Ok ke ->
  mget (calcKey C (keHash ke) (keHash (hSenderPub h)) (hRecipTempHash h) (keHash (hSessPub h))) (sessions (wStore w)) = None ->
  mget (hRecipTempHash h) (privKEs (wStore w)) = None -> is_ok (fst (receive C ra msg w)) = false.
Proof.
  intros C ra msg w hp i h s ke RH K U PN. rewrite (receive_reads _ _ _ _ _ _ _ _ RH). destruct (mbind _ _ w) as [[y| |] w2] eqn:E; try reflexivity. exfalso.
  apply mbind_ok in E as ([[ke' sk] oss] & w1 & D & R). unfold decState in D. rewrite K in D. rewrite lift_bind in D. apply mbind_ok in D as (rp & v & Q & D). apply lift_ok in Q as [_ ->].
  apply mbind_ok in D as (sp & v & Q & D). apply lift_ok in Q as [_ ->]. cbv zeta in D. apply mbind_ok in D as (os & v & Q & D). unfold getSessionState in Q. apply ask_ok in Q as [_ ->].
  apply mbind_ok in D as (kn & v & Q & D). unfold hasSession in Q. apply ask_ok in Q as [-> ->]. unfold mhas in D. rewrite U in D. apply mbind_ok in D as (o & v & Q & D).
  unfold decUnknown in Q. apply mbind_ok in Q as (oki & v' & Q1 & Q). unfold getPrivateKeyEntry in Q1. apply ask_ok in Q1 as [-> ->]. rewrite PN in Q.
  apply okpair in Q as [_ <-]. apply okpair in D as [D <-]. apply pair_inj in D as [D _]. apply pair_inj in D as [_ <-].
  unfold restOf in R. apply mbind_ok in R as (mk & v & Q & _). unfold decKey in Q. apply mbind_ok in Q as (n & v' & Q & _). unfold numMessageKeys, memSession in Q. rewrite U in Q. discriminate Q.
Qed.
(* So: in a conversation, the peer that has received the reset message goes on in the session it had, and a party that has lost that session
   decrypts none of its messages. *)
Theorem C125_locked_out : forall C P c0 c p ra m h c1 a r m' c2 t, reach C P c0 c -> noColl C P (cUsed c2) ->
  stateOf C P (negb p) c = Some t -> stKeyInit t = false ->
  carries C P (negb p) m h -> hSenderPub h = initDHKey C (pSec (P p)) -> mget (sessIn C P (negb p) h) (sessions (cStore c (negb p))) = None ->
  gets C P (negb p) ra m c c1 -> sends C P (negb p) a r m' c1 c2 -> eStatus a <> StatusReset ->
  stateOf C P (negb p) c1 = Some t /\
  forall ra' lost, recvOk C P p ra' ->
    mget (calcKey C (docHash C (dhpub C (pSec (P p)))) (docHash C (dhpub C (pSec (P (negb p))))) (keHash (stRecipTemp t)) (keHash (stSenderPub t))) (sessions lost) = None ->
    mget (keHash (stRecipTemp t)) (privKEs lost) = None ->
    is_ok (fst (run (receive C ra' (sWire m')) lost)) = false.
Proof.
  intros C P c0 c p ra m h c1 a r m' c2 t R NC S KI CA HP U G SN NR.
  assert (NC1 : noColl C P (cUsed c1)) by (eapply used_sends; eassumption).
  assert (R1 : reach C P c0 c1) by (eapply RStep; [exact R|eapply gets_step; exact G]).
  assert (HP' : hSenderPub h = initDHKey C (pSec (P (negb (negb p))))) by (rewrite negb_involutive; exact HP).
  destruct (gets_state C P _ _ _ _ _ _ _ R G NC1 CA HP') as (stored & T & _). cbv zeta in T. unfold mhas in T. rewrite U, S in T. cbn [after] in T. unfold afterUnknown in T. rewrite KI in T. cbn [andb] in T.
  assert (S1 : stateOf C P (negb p) c1 = Some t) by (rewrite T; destruct (option_map fst _); reflexivity).
  split; [exact S1|]. intros ra' lost RO L1 L2. destruct (sends_state C P _ _ _ _ _ _ _ R1 SN NC) as (ss & h' & S2 & HF & CA' & N).
  destruct (N.eqb_spec (eStatus a) StatusReset) as [Q|_]; [contradiction|]. rewrite S1 in N. subst ss.
  rewrite negb_involutive in CA'. destruct (CA' ra' RO) as (hp & i & s & RH & ID). destruct ID as [[_ [ks ID]] _].
  refine (C125_unreadable C ra' (sWire m') (mkWorld lost [] []) hp i h' s (initDHKey C (pSec (P p))) RH (pubKey_cons _ _ _ ID) _ _); cbn [wStore].
  - rewrite (hf_pub _ _ _ _ _ HF), (hf_temp _ _ _ _ _ HF), (hf_sess _ _ _ _ _ HF), !keHash_init. exact L1.
  - rewrite (hf_temp _ _ _ _ _ HF). exact L2.
Qed.
Definition touches (k : bytes) (o : op) : Prop := match o with OStoreSession k' _ _ _ _ => k' = k | ODelMsgKey k' _ _ => k' = k | _ => True end.
Lemma touches_fold k l : Forall (touches k) l -> forall st, privKEs (fold_left (fun s o => apply_op o s) l st) = privKEs st /\
  forall sk, sk <> k -> mget sk (sessions (fold_left (fun s o => apply_op o s) l st)) = mget sk (sessions st).
Proof.
  induction 1 as [|o l T F IH]; intros st; cbn [fold_left]; [auto|]. destruct (IH (apply_op o st)) as [I1 I2]. rewrite I1. split.
  - destruct o; cbn [apply_op]; try reflexivity; destruct (mget _ _); reflexivity.
  - intros sk NE. rewrite I2 by exact NE. destruct o; cbn [apply_op touches] in *; try reflexivity.
    + subst. destruct (mget _ _); cbn [sessions]; apply mget_mset_other; exact NE.
    + destruct (mget _ _); reflexivity.
    + subst. destruct (mget _ _); [|reflexivity]. cbn [sessions]. apply mget_mset_other. exact NE.
Qed.
(* what the first message of a session depends on, and what it adds to the store *)
Lemma first_out C a r st sa sb kb nym0 nym w' : firstEnc C a r st sa sb kb nym0 -> run (encrypt C a r) st = (Ok nym, w') ->
  let fix_ := identityFix C (uIdentity (idUid (eFrom a))) (uIdentity (eTo a)) in
  exists hp body, encHeader C a r (ssFirst C (rSessPriv r) kb nym0) = Ok hp /\
    sealBody C (msgKeyVal C (chainAt C (rootOf C sa (rSessPriv r) sb kb None) 0) (dhpub C kb) fix_) (rIv r) (encContent a) (eSigKey a) (rPad r) = Ok body /\
    wOut w' = b64enc (rawMsg C (rHeaderPriv r) hp body) /\ privKEs (wStore w') = privKEs st /\
    forall sk, sk <> skOf C sa sb (rSessPriv r) kb -> mget sk (sessions (wStore w')) = mget sk (sessions st).
Proof.
  intros FE H fix_. unfold run in H. apply encrypt_ok in H as (ss & w1 & w2 & hp & sk & mk & body & fk & tk & E).
  pose proof (encrypt_out _ _ _ _ _ _ _ _ _ _ _ _ _ _ _ E) as O. cbn [wOut app] in O.
  destruct E as [E1 E2 E3 E4 E5 E6 E7 E8 E9]. rewrite (encState_first C a r (mkWorld st [] []) sa sb kb nym0 FE) in E1.
  apply okpair in E1 as [E1 E1']. apply pair_inj in E1 as [_ <-].
  pose proof FE as [[ks F] P [ks' T] S K NW V Hn]. set (x := rSessPriv r) in *. set (root := rootOf C sa x sb kb None) in *. set (n := numKeys (eNumKeys a)) in *.
  assert (G : mget (skOf C sa sb x kb) (sessions (wStore w1)) = Some (sessAfter C x kb fix_ root n)).
  { rewrite <- E1', steps_store. exact (newSess_get C sa sb x kb fix_ root n (apply_op (addKey C x (eCleanup a)) st) NW). }
  assert (L : (N.to_nat 0 < N.to_nat n)%nat) by lia.
  pose proof (encKey_at C a (ssFirst C x kb nym0) w1 sa sb x kb _ root (N.to_nat n) ks ks' F T eq_refl eq_refl G (sessAfter_ok C x kb fix_ root n) L) as EK.
  cbn [ssFirst stMsgCount] in EK. specialize (EK (keysFor_ne C root (dhpub C kb) fix_ n 0 ltac:(lia))). change (N.to_nat 0) with 0%nat in EK.
  rewrite EK in E3. apply okpair in E3 as [E3 <-]. apply pair_inj in E3 as [<- <-].
  exists hp, body. split; [exact E2|]. split; [exact E5|]. split; [exact O|].
  rewrite E9, <- E1', <- steps_app, steps_store. cbn [wStore]. apply touches_fold. fold (skOf C sa sb x kb). repeat constructor.
Qed.
Lemma sess_fresh C P c0 c p x y : reach C P c0 c -> noColl C P (y :: cUsed c) -> fresh C [y] (cUsed c) -> In x (cUsed c) ->
  mget (skOf C (pSec (P p)) (pSec (P (negb p))) x y) (sessions (cStore c p)) = None.
Proof.
  intros R NC FR X. destruct (reach_inv C P _ _ R) as [g I]; [eapply noColl_incl; [|exact NC]; intros z Q; now right|].
  match goal with |- mget ?k ?m = None => destruct (mget k m) as [s|] eqn:E; [|reflexivity] end. exfalso.
  destruct (b_only _ _ _ _ _ (i_base _ _ _ _ I p) _ _ E) as (x' & y' & I1 & I2). destruct (b_tags _ _ _ _ _ (i_base _ _ _ _ I p) _ _ I1) as [T1 T2].
  assert (U : forall z, ownT g p z -> In z (cUsed c)) by (intros z Q; eapply ownT_used; [apply (i_tags _ _ _ _ I)|exact Q]).
  assert (U' : In y' (cUsed c)) by (eapply ownT_used; [apply (i_tags _ _ _ _ I)|exact T2]).
  unfold fresh in FR. cbn [app] in FR.
  apply (SK_inj C P (y :: cUsed c) FR NC p) in I2; [|right; exact X|now left|right; apply U, T1|right; exact U'].
  destruct I2 as [_ <-]. cbn [map] in FR. inversion FR as [|? ? F1 F2]; subst. apply F1, in_map, U'.
Qed.
Lemma cx_sk_ne n : 6 < n -> n < 200 -> skOf toyI (cxSec true) (cxSec false) (keyN n) (cxKI false) <> skOf toyI (cxSec true) (cxSec false) (keyN 6) (cxKI false).
Proof.
  intros H H' E. assert (KU : NoDup (map (dhpub toyI) (map keyN [6; n; 4]))).
  { apply keys_fresh; [|repeat constructor; lia]. constructor; [cbn [In]; lia|]. constructor; [cbn [In]; lia|]. constructor; [intros []|constructor]. }
  apply (SK_inj toyI cxP (map keyN [6; n; 4]) KU (toyI_noColl _ _) true (keyN n) (cxKI false) (keyN 6) (cxKI false)) in E; [|cbn [map In cxKI]; auto..].
  destruct E as [E _]. assert (Q : dhpub toyI (keyN n) = dhpub toyI (keyN 6)) by now rewrite E. apply keyN_inj in Q; lia.
Qed.
Lemma cx_first k status n st : (status = 1 \/ mget (calcStateKey toyI (dhpub toyI (cxSec true)) (dhpub toyI (cxSec false))) (states st) = None) ->
  pubKEs st = pubKEs (cStore cxStart true) -> mget (skOf toyI (cxSec true) (cxSec false) (keyN n) (cxKI false)) (sessions st) = None ->
  4 < k -> k < n -> n < 200 -> firstEnc toyI (cxArgs true hello status) (cxRnd k n false) st (cxSec true) (cxSec false) (cxKI false) (str "nymaddress").
Proof.
  intros SS PB NW K1 K2 K3. constructor; cbn [cxArgs eFrom eTo eStatus eNumKeys cxRnd rSessPriv rHeaderPriv negb].
  - exists []. reflexivity.
  - reflexivity.
  - exists []. reflexivity.
  - exact SS.
  - rewrite PB. change (mget (cxName false) [(cxName false, (initDHKey toyI (cxKI false), str "nymaddress"))] = Some (initDHKey toyI (cxKI false), str "nymaddress")).
    cbn [mget]. rewrite beq_refl. reflexivity.
  - exact NW.
  - unfold fiveKeys. change ([dhpub toyI (keyN k); dhpub toyI (cxSec true); dhpub toyI (keyN n); dhpub toyI (cxSec false); dhpub toyI (cxKI false)])
      with (map (dhpub toyI) (map keyN [k; 1; n; 2; 4])). apply keys_fresh; [|repeat constructor; lia].
    constructor; [cbn [In]; lia|]. constructor; [cbn [In]; lia|]. constructor; [cbn [In]; lia|]. constructor; [cbn [In]; lia|]. constructor; [intros []|constructor].
  - vm_compute. discriminate.
Qed.
Theorem C125_refuted : exists c nym lost x wB nym' wB', reachX c /\
  run (encrypt toyI (cxArgs true hello StatusReset) (cxRnd 8 9 false)) (cxStore true) = (Ok nym, lost) /\
  run (receive toyI (cxRa false 10) (wOut lost)) (cStore c false) = (Ok x, wB) /\
  run (encrypt toyI (cxArgs false hello StatusOK) (cxRnd 11 12 false)) (wStore wB) = (Ok nym', wB') /\
  forall ra, recvOk toyI cxP true ra -> is_ok (fst (run (receive toyI ra (wOut wB')) (wStore lost))) = false.
Proof.
  destruct (cx_send 5 cxStart true false) as (m0 & c1 & S0 & A1 & N1 & N1'); [lia|exact cxAt_start|].
  cbn [cxStart cNet app] in N1. cbn [cxStart cNet negb] in N1'.
  destruct (cx_get (5 + 2) c1 false m0 []) as (c2 & G0 & A2 & N2 & N2'); [lia|exact A1|exact N1|]. cbn [negb] in N2.
  change (5 + 2 + 1) with 8 in A2. change (5 + 1) with 6 in S0. change (5 + 2) with 7 in G0.
  destruct (first_exchange toyI cxP true _ _ _ _ _ _ _ cx_start S0 G0 (toyI_noColl _ _)) as (kb & ny & nym & K & P1 & P2 & Q2). cbn [negb] in Q2.
  assert (KB : kb = cxKI false) by (cbn [negb cxP pKIs In] in K; destruct K as [K|[]]; symmetry; exact K). subst kb.
  destruct (cx_send_st 1 8 c2 true false) as (m1 & c3 & S1 & A3 & N3 & N3'); [lia|lia|exact A2|]. rewrite N2 in N3. cbn [app] in N3. change (8 + 2) with 10 in A3. change (8 + 1) with 9 in S1.
  destruct (cx_get 10 c3 false m1 []) as (c4 & G1 & A4 & N4 & N4'); [lia|exact A3|exact N3|]. change (10 + 1) with 11 in A4.
  destruct (cx_send 11 c4 false false) as (m2 & c5 & S2 & A5 & N5 & N5'); [lia|exact A4|]. change (11 + 1) with 12 in S2.
  destruct (cx_send_st 1 8 cxStart true false) as (m1' & c1' & S1' & _); [lia|lia| |].
  { destruct cxAt_start as [B1 (l & B2 & B3 & B4) B5 B6 B7]. constructor; try assumption.
    - exists l. split; [exact B2|]. split; [exact B3|]. eapply Forall_impl; [|exact B4]. cbn beta. lia.
    - intros p ss Q. specialize (B5 p ss Q). lia.
    - intros p m Q. specialize (B6 p m Q). lia. }
  change (8 + 1) with 9 in S1'.
  destruct S1' as (_ & _ & _ & nymL & lost & EL & _ & _).
  assert (CS : cStore c2 true = cStore c1 true) by exact (gets_other _ _ _ _ _ _ _ G0).
  pose proof S0 as (_ & _ & _ & nym0 & w0 & E0 & _ & C1).
  pose proof (cx_first 5 0 6 (cxStore true) (or_intror eq_refl) eq_refl eq_refl ltac:(lia) ltac:(lia) ltac:(lia)) as F0.
  destruct (first_out _ _ _ _ _ _ _ _ _ _ F0 E0) as (_ & _ & _ & _ & _ & _ & O0). cbn [cxRnd rSessPriv] in O0. specialize (O0 _ (cx_sk_ne 9 ltac:(lia) ltac:(lia))).
  pose proof (cx_first 8 1 9 (cxStore true) (or_introl eq_refl) eq_refl eq_refl ltac:(lia) ltac:(lia) ltac:(lia)) as FL.
  assert (F2 : firstEnc toyI (cxArgs true hello 1) (cxRnd 8 9 false) (cStore c2 true) (cxSec true) (cxSec false) (cxKI false) (str "nymaddress")).
  { refine (cx_first 8 1 9 _ (or_introl eq_refl) (ca_pub _ _ A2 true) _ _ _ _); [|lia..]. rewrite CS, C1. cbn [cStore]. rewrite upd_same. exact O0. }
  pose proof S1 as (_ & _ & _ & nym1 & w1 & E1 & M1 & C3).
  destruct (first_out _ _ _ _ _ _ _ _ _ _ FL EL) as (hp & body & H1 & H2 & H3 & H4 & H5).
  destruct (first_out _ _ _ _ _ _ _ _ _ _ F2 E1) as (hp' & body' & J1 & J2 & J3 & _ & _).
  rewrite H1 in J1. apply Ok_inj in J1. subst hp'. rewrite H2 in J2. apply Ok_inj in J2. subst body'. rewrite <- H3 in J3.
  assert (W1 : sWire m1 = wOut lost) by (rewrite M1; exact J3).
  assert (CF : cStore c3 false = cStore c2 false) by exact (sends_other _ _ _ _ _ _ _ _ S1).
  pose proof G1 as (_ & _ & l1 & l2 & x & wB & NT & RB & C4). rewrite W1, CF in RB.
  pose proof S2 as (_ & _ & _ & nym2 & wB' & EB & M2 & _). assert (CB : cStore c4 false = wStore wB) by (rewrite C4; reflexivity). rewrite CB in EB.
  exists c2, nymL, lost, x, wB, nym2, wB'. split; [apply orderly_reach, (ca_ord _ _ A2)|]. split; [exact EL|]. split; [exact RB|]. split; [exact EB|].
  intros ra RO. assert (W2 : sWire m2 = wOut wB') by (rewrite M2; reflexivity). rewrite <- W2.
  assert (R2 : reachX c2) by (apply orderly_reach, (ca_ord _ _ A2)).
  assert (R3 : reachX c3) by (apply orderly_reach, (ca_ord _ _ A3)).
  destruct (sends_state toyI cxP _ _ _ _ _ _ _ R2 S1 (toyI_noColl _ _)) as (ss1 & h1 & T1 & HF1 & CA1 & D1).
  change (if eStatus (cxArgs true hello 1) =? StatusReset then None else stateX true c2) with (@None state) in D1. destruct D1 as (kb' & ny' & D1 & _ & D2).
  assert (KB' : kb' = cxKI false) by (cbn [negb cxP pKIs In] in D1; destruct D1 as [D1|[]]; symmetry; exact D1). subst kb'.
  assert (TB : stateX false c3 = Some (mkState 0 0 0 (initDHKey toyI (keyN 6)) (initDHKey toyI (cxKI false)) (Some (initDHKey toyI (keyN 7))) None nym false)).
  { unfold stateX. unfold stateOf. rewrite CF. exact Q2. }
  assert (U1 : mget (sessIn toyI cxP false h1) (sessions (cStore c3 false)) = None).
  { rewrite CF. unfold sessIn. rewrite (hf_temp _ _ _ _ _ HF1), (hf_sess _ _ _ _ _ HF1), D2. cbn [stateNew stRecipTemp stSenderPub cxRnd rSessPriv]. rewrite !keHash_init.
    destruct (ca_used _ _ A2) as (l & B1 & B2 & B3).
    refine (sess_fresh toyI cxP cxStart c2 false (cxKI false) (keyN 9) R2 (toyI_noColl _ _) _ _).
    - unfold fresh. rewrite B1. apply (keys_fresh (9 :: l)); [constructor; [intros Q; rewrite Forall_forall in B3; specialize (B3 _ Q); lia|exact B2]|].
      constructor; [lia|]. eapply Forall_impl; [|exact B3]. cbn beta. lia.
    - assert (IC : incl (cUsed cxStart) (cUsed c2)).
      { eapply incl_tran; [eapply step_used, (sends_step _ _ _ _ _ _ _ _ S0)|eapply step_used, (gets_step _ _ _ _ _ _ _ G0)]. }
      apply IC. cbn [cxStart cUsed In cxKI]. auto. }
  destruct (C125_locked_out toyI cxP cxStart c3 true (cxRa false 10) m1 h1 c4 (cxArgs false hello 0) (cxRnd 11 12 false) m2 c5 _ R3 (toyI_noColl _ _) TB eq_refl CA1 (hf_pub _ _ _ _ _ HF1) U1 G1 S2) as [_ LO];
    [cbn [cxArgs eStatus]; discriminate|].
  apply (LO ra (wStore lost) RO); cbn [stRecipTemp stSenderPub]; rewrite !keHash_init.
  - rewrite H5; [reflexivity|]. intros Q. apply (cx_sk_ne 9); [lia|lia|]. symmetry. exact Q.
  - rewrite H4. change (mget (hashText toyI (dhpub toyI (keyN 6))) [(hashText toyI (dhpub toyI (keyN 3)), (initDHKey toyI (cxKI true), cxKI true))] = None).
    cbn [mget]. destruct (beq _ _) eqn:Q; [|reflexivity]. exfalso. apply beq_spec in Q.
    assert (KU : NoDup (map (dhpub toyI) (map keyN [6; 3]))).
    { apply keys_fresh; [|repeat constructor; lia]. constructor; [cbn [In]; lia|]. constructor; [intros []|constructor]. }
    apply (hash_ne toyI cxP _ KU (toyI_noColl _ _)) in Q; [exact Q|cbn [map In]; auto|cbn [map In]; auto|].
    intros X. assert (Y : dhpub toyI (keyN 6) = dhpub toyI (keyN 3)) by now rewrite X. apply keyN_inj in Y; lia.
Qed.
(* ------------------------------------------------------------------ *)
(* C126: the recipient verifies that SenderLastKeychainHash is valid and current (section 2.2, item 3).  Full statement (false): a message whose
   keychain hash is not an entry of the hash chain is rejected.  Decrypt does not look at the field. *)
Definition withKeychain (h : header) (kc : bytes) : header :=
  mkHeader (hSuite h) (hRecipPubHash h) (hRecipTempHash h) (hSender h) (hSessPub h) (hSenderPubHash h) (hSenderPub h) (hNext h) (hSeen h) (hNym h)
    (hMaxDelay h) (hSessCount h) (hMsgCount h) (hUID h) kc (hStatus h) (hPadding h).
Theorem C126_not_looked_at : forall C ra msg msg' hp i h kc s w, readsHeader C ra msg hp i h s -> readsHeader C ra msg' hp i (withKeychain h kc) s ->
  receive C ra msg w = receive C ra msg' w.
Proof. intros C ra msg msg' hp i h kc s w R1 R2. rewrite (receive_reads _ _ _ _ _ _ _ _ R1), (receive_reads _ _ _ _ _ _ _ _ R2). reflexivity. Qed.

Lemma cx_pair : exists nym w x w', run (encrypt toyI (cxArgs true hello StatusOK) (cxRnd 5 6 false)) (cxStore true) = (Ok nym, w) /\
  run (receive toyI (cxRa false 7) (wOut w)) (cxStore false) = (Ok x, w').
Proof.
  destruct (cx_send 5 cxStart true false) as (m0 & c1 & S0 & A1 & N1 & _); [lia|exact cxAt_start|].
  cbn [cxStart cNet app] in N1. destruct (cx_get (5 + 2) c1 false m0 []) as (c2 & G0 & _); [lia|exact A1|exact N1|]. change (5 + 1) with 6 in S0. change (5 + 2) with 7 in G0.
  destruct S0 as (_ & _ & _ & nym & w & E0 & M0 & C1). destruct G0 as (_ & _ & l1 & l2 & x & w' & _ & RU & _).
  exists nym, w, x, w'. split; [exact E0|]. rewrite C1, M0 in RU. cbn [cStore sWire] in RU. exact RU.
Qed.
Theorem C126_refuted : exists nym w x w', is_ok (splitEntry (eKeychain (cxArgs true hello StatusOK))) = false /\
  run (encrypt toyI (cxArgs true hello StatusOK) (cxRnd 5 6 false)) (cxStore true) = (Ok nym, w) /\
  run (receive toyI (cxRa false 7) (wOut w)) (cxStore false) = (Ok x, w').
Proof. destruct cx_pair as (nym & w & x & w' & E & R). exists nym, w, x, w'. split; [vm_compute; reflexivity|]. split; assumption. Qed.

(* The hypotheses of C122, C123 and C124 can be met: five different keys, and a message that is encrypted with a 16-byte IV and a 24-byte nonce. *)
Example C122_ex : NoDup [dhpub toyI (keyN 5); dhpub toyI (cxSec true); dhpub toyI (keyN 6); dhpub toyI (cxSec false); dhpub toyI (cxKI false)].
Proof.
  change (NoDup (map (dhpub toyI) (map keyN [5; 1; 6; 2; 4]))). apply keys_fresh; [|repeat constructor; lia].
  constructor; [cbn [In]; lia|]. constructor; [cbn [In]; lia|]. constructor; [cbn [In]; lia|]. constructor; [cbn [In]; lia|]. constructor; [intros []|constructor].
Qed.
Example C123_C124_ex : exists nym w, run (encrypt toyI (cxArgs true hello StatusOK) (cxRnd 5 6 false)) (cxStore true) = (Ok nym, w) /\
  lenN (rIv (cxRnd 5 6 false)) = 16 /\ lenN (rNonce (cxRnd 5 6 false)) = 24 /\
  uPubKeys (idUid (eFrom (cxArgs true hello StatusOK))) = [initDHKey toyI (cxSec true)] /\ uPubKeys (eTo (cxArgs true hello StatusOK)) = [initDHKey toyI (cxSec false)].
Proof. destruct cx_pair as (nym & w & x & w' & E & R). exists nym, w. split; [exact E|]. repeat split. Qed.

(* ------------------------------------------------------------------ *)
(* C127: session keys are cleaned up by time. *)
Theorem C127_cleanup : forall t st, mwf (skeys st) ->
  (forall h k, mget h (skeys (cleanupSessionKeys t st)) = Some k <-> mget h (skeys st) = Some k /\ t <= skClean k) /\
  states (cleanupSessionKeys t st) = states st /\ sessions (cleanupSessionKeys t st) = sessions st /\
  privKEs (cleanupSessionKeys t st) = privKEs st /\ pubKEs (cleanupSessionKeys t st) = pubKEs st.
Proof.
  intros t st W. split; [|repeat split; reflexivity]. intros h k. unfold cleanupSessionKeys. cbn [skeys]. rewrite (mget_mfilter _ h _ W).
  destruct (mget h (skeys st)) as [v|]; [|split; [discriminate|intros [Q _]; discriminate Q]].
  destruct (N.ltb_spec (skClean v) t) as [L|L]; cbn [negb].
  - split; [discriminate|]. intros [Q B]. injection Q as <-. lia.
  - split; [intros Q; injection Q as <-; auto|]. intros [Q _]. exact Q.
Qed.
Example C127_ex : let st := mkStore [] [] [] [] [([1], mkSKey [] [] 5); ([2], mkSKey [] [] 6); ([3], mkSKey [] [] 7)] in
  map fst (skeys (cleanupSessionKeys 6 st)) = [[2]; [3]] /\ mwf (skeys st).
Proof. split; [vm_compute; reflexivity|]. repeat constructor; cbn [In]; intuition discriminate. Qed.

Print Assumptions C122_sender.
Print Assumptions C122_recipient.
Print Assumptions C122_state_name.
Print Assumptions C123_layout.
Print Assumptions C124_header.
Print Assumptions C124_verified.
Print Assumptions C125_ignored.
Print Assumptions C125_unreadable.
Print Assumptions C125_locked_out.
Print Assumptions C125_refuted.
Print Assumptions C126_not_looked_at.
Print Assumptions C126_refuted.
Print Assumptions C127_cleanup.
