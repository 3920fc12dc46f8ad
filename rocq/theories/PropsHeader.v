(* C03: the header packet has one fixed size. *)
From Verif Require Import Base Base64Model Base64Proofs CodecModel CodecProofs JsonModel JsonProofs CryptoModel StoreModel KeysModel KeysProofs MsgFormatModel MsgFormatProofs HeaderModel HeaderProofs.
Local Open Scope N_scope.

Lemma Ok_inj {A} (a b : A) : Ok a = Ok b -> a = b.
Proof. intros E; injection E; auto. Qed.

(* Characters that need no escape in JSON: the specification's own notion. *)
Definition unescaped (s : bytes) : Prop := forall c, In c s -> 32 <= c /\ c <> 34 /\ c <> 92 /\ c <> 60 /\ c <> 62 /\ c <> 38.
Lemma unescaped_plain s : unescaped s -> plain s.
Proof.
  intros H. unfold plain. apply forallb_forall. intros c Hc. apply H in Hc. unfold jplain. lia.
Qed.
(* A key entry made by InitDHKey for some private key. *)
Definition dhEntry (C : Crypto) (k : keyEntry) : Prop := exists p, k = initDHKey C p.
Definition dhEntryOpt (C : Crypto) (o : option keyEntry) : Prop := match o with None => True | Some k => dhEntry C k end.
(* A UID message of the shape uid.Create gives it (uid/uid.go:130-196): one static key, one repository,
   one cipher suite, no chain link; [escrow] says whether there is an escrow key. *)
Definition sigEntry (C : Crypto) (k : keyEntry) : Prop :=
  exists p, k = mkKE DefaultCiphersuite fED25519 (b64enc (sha512 C (edpub C p))) (b64enc (edpub C p)).
Definition createdUid (C : Crypto) (escrow : bool) (u : uidMsg) : Prop :=
  Forall unescaped [uVersion u; uMix u; uNym u; uIdentity u; uLastEntry u; uFwdSec u; uEscrowSig u; uUserSig u; uSelfSig u; uLinkAuth u]
  /\ sigEntry C (uSigKey u)
  /\ (exists k, uPubKeys u = [k] /\ dhEntry C k)
  /\ (exists d, uRepoURIs u = [d] /\ unescaped d) /\ (exists c, uSuites u = [c] /\ unescaped c) /\ uChain u = None
  /\ match uEscrow u with None => escrow = false | Some k => escrow = true /\ sigEntry C k end.
Lemma sigEntry_len C k : sigEntry C k -> keLen 7 k.
Proof.
  intros (p & ->). unfold keLen. cbn [keSuite keFunc keHash kePub].
  rewrite !lenN_b64enc, sha512_len, edpub_len. repeat split; try apply plain_b64enc; reflexivity.
Qed.
Lemma dhEntry_len C k : dhEntry C k -> keLen 10 k.
Proof. intros (p & ->). apply keLen_init. Qed.
Lemma dhEntryOpt_len C o : dhEntryOpt C o -> optLen o.
Proof. destruct o; [apply dhEntry_len|trivial]. Qed.
Lemma createdUid_shape C e u : createdUid C e u -> uidShape e u.
Proof.
  intros (F & Hs & (k & Hk & Kk) & (d & Hd & Pd) & (c & Hc & Pc) & Hch & He).
  rewrite !Forall_cons_iff in F. decompose [and] F; clear F.
  unfold uidShape. repeat (split; [apply unescaped_plain; assumption|]).
  split; [eapply sigEntry_len; eassumption|].
  split; [exists k; split; [assumption|eapply dhEntry_len; eassumption]|].
  split; [exists d; split; [assumption|apply unescaped_plain; assumption]|].
  split; [exists c; split; [assumption|apply unescaped_plain; assumption]|].
  split; [assumption|]. destruct (uEscrow u); [|assumption].
  destruct He as [He1 He2]. split; [assumption|eapply sigEntry_len; eassumption].
Qed.

(* Everything that Encrypt passes to newHeader, with well-formed key material. *)
Record hdrArgs (C : Crypto) (from to : uidMsg) (rth : bytes) (sp : keyEntry) (next seen : option keyEntry) (sc mc : N) (kc rand : bytes) (st : N) : Prop := {
  ha_to : exists k ks, uPubKeys to = k :: ks /\ dhEntry C k;
  ha_from : exists k ks, uPubKeys from = k :: ks /\ dhEntry C k;
  ha_rth : exists k, dhEntry C k /\ rth = keHash k;
  ha_sp : dhEntry C sp;
  ha_next : dhEntryOpt C next;
  ha_seen : dhEntryOpt C seen;
  ha_sc : sc < 2 ^ 64;
  ha_mc : mc < 2 ^ 64;
  ha_kc : unescaped kc;
  ha_rand : wfb rand;
  ha_st : st < 10 }.
Lemma dhEntry_hash C k : dhEntry C k -> lenN (keHash k) = 88 /\ plain (keHash k).
Proof. intros H. apply dhEntry_len in H. unfold keLen in H. tauto. Qed.

Lemma header_len_general C from to rth sp next seen nym sc mc kc rand st h :
  hdrArgs C from to rth sp next seen sc mc kc rand st ->
  newHeader C from to rth sp next seen nym sc mc kc rand st = Ok h ->
  lenN (jprint (headerToJson h)) + lenN (uIdentity from) + lenN nym + lenN (uidJSON from)
    = 7054 + escs (uIdentity from) + escs nym + escs (uidJSON from) /\
  lenN (uIdentity from) <= 254 /\ lenN nym <= 1568 /\ lenN (uidJSON from) <= 2004.
Proof.
  intros A E. apply newHeader_inv in E as (tk & tks & fk & fks & pad & Hk & Ht & Hf & H1 & H2 & H3 & -> & Hp & Hpl).
  destruct A as [[k1 [ks1 [T1 T2]]] [k2 [ks2 [F1 F2]]] [k3 [R1 ->]] S1 Hn1 Hs1 Hsc Hmc Hkc Hr Hst].
  rewrite Ht in T1. injection T1 as <- <-. rewrite Hf in F1. injection F1 as <- <-.
  specialize (Hp Hsc Hmc). specialize (Hpl Hr). apply unescaped_plain in Hkc.
  pose proof (dhEntry_hash C _ T2) as [? ?]. pose proof (dhEntry_hash C _ F2) as [? ?]. pose proof (dhEntry_hash C _ R1) as [? ?].
  split; [|auto].
  rewrite header_json_len; cbn [hSuite hRecipPubHash hRecipTempHash hSender hSessPub hSenderPubHash hSenderPub hNext hSeen hNym hMaxDelay hSessCount hMsgCount hUID hKeychain hStatus hPadding];
    try assumption; try reflexivity.
  - destruct next, seen; lia.
  - eapply dhEntry_len; eassumption.
  - eapply dhEntry_len; eassumption.
  - eapply dhEntryOpt_len; eassumption.
  - eapply dhEntryOpt_len; eassumption.
Qed.

(* A header packet that is produced has 24 + 2 + 7168 bytes, whatever the identity, the nym address, the UID
   message, the counters and the optional keys are. *)
Theorem C03_packet_fixed_size : forall C from to rth sp next seen nym sc mc kc rand st h rpub hpriv nonce pk,
  hdrArgs C from to rth sp next seen sc mc kc rand st ->
  newHeader C from to rth sp next seen nym sc mc kc rand st = Ok h ->
  lenN nonce = 24 ->
  headerPacket C h rpub hpriv nonce = Ok pk ->
  lenN pk = 7194.
Proof.
  intros C from to rth sp next seen nym sc mc kc rand st h rpub hpriv nonce pk A E Hn.
  pose proof (header_len_general _ _ _ _ _ _ _ _ _ _ _ _ _ _ A E) as (L & L1 & L2 & L3).
  unfold headerPacket. rewrite boxseal_len. unfold lengthEncryptedHeader.
  destruct (N.eqb_spec ((lenN (jprint (headerToJson h)) + 16) mod 2 ^ 16) 7168) as [M|]; [|discriminate]. cbn [negb].
  intros P. apply Ok_inj in P. subst pk. rewrite !lenN_app, lenN_be, boxseal_len, Hn.
  pose proof (escs_bound (uIdentity from)). pose proof (escs_bound nym). pose proof (escs_bound (uidJSON from)).
  change (2 ^ 16) with 65536 in M. lia.
Qed.

(* The header JSON before encryption has one length for every identity and nym address without special
   characters, every pair of counters and every choice of optional keys; only the escaping of the UID message
   that is embedded as a string contributes. *)
Theorem C03_header_length : forall C from to rth sp next seen nym sc mc kc rand st h,
  hdrArgs C from to rth sp next seen sc mc kc rand st ->
  newHeader C from to rth sp next seen nym sc mc kc rand st = Ok h ->
  unescaped (uIdentity from) -> unescaped nym ->
  lenN (jprint (headerToJson h)) + lenN (uidJSON from) = 7054 + escs (uidJSON from).
Proof.
  intros C from to rth sp next seen nym sc mc kc rand st h A E Hi Hn.
  pose proof (header_len_general _ _ _ _ _ _ _ _ _ _ _ _ _ _ A E) as (L & L1 & L2 & L3).
  rewrite (escs_of_plain (uIdentity from)), (escs_of_plain nym) in L by (apply unescaped_plain; assumption). lia.
Qed.

(* For UID messages as created without escrow key every header that is built is accepted by newHeaderPacket. *)
Theorem C03_created_uid_accepted : forall C from to rth sp next seen nym sc mc kc rand st h rpub hpriv nonce,
  hdrArgs C from to rth sp next seen sc mc kc rand st ->
  createdUid C false from -> unescaped nym ->
  newHeader C from to rth sp next seen nym sc mc kc rand st = Ok h ->
  lenN (jprint (headerToJson h)) = 7152 /\
  exists pk, headerPacket C h rpub hpriv nonce = Ok pk.
Proof.
  intros C from to rth sp next seen nym sc mc kc rand st h rpub hpriv nonce A U Hn E.
  pose proof (escs_uid false from (createdUid_shape _ _ _ U)) as Q. cbv iota in Q.
  assert (Hi : unescaped (uIdentity from)).
  { destruct U as [F _]. rewrite !Forall_cons_iff in F. tauto. }
  pose proof (C03_header_length _ _ _ _ _ _ _ _ _ _ _ _ _ _ A E Hi Hn) as L.
  assert (LL : lenN (jprint (headerToJson h)) = 7152) by lia. split; [exact LL|].
  eexists. unfold headerPacket. rewrite boxseal_len, LL. reflexivity.
Qed.

(* With an escrow key the header is built, but it is 16 bytes longer and newHeaderPacket refuses it: the
   serialised header does not have the same length for all accepted UID messages. *)
Theorem C03_escrow_uid_refused : forall C from to rth sp next seen nym sc mc kc rand st h rpub hpriv nonce,
  hdrArgs C from to rth sp next seen sc mc kc rand st ->
  createdUid C true from -> unescaped nym ->
  newHeader C from to rth sp next seen nym sc mc kc rand st = Ok h ->
  lenN (jprint (headerToJson h)) = 7168 /\
  headerPacket C h rpub hpriv nonce = Err "msg: encrypted header has wrong length".
Proof.
  intros C from to rth sp next seen nym sc mc kc rand st h rpub hpriv nonce A U Hn E.
  pose proof (escs_uid true from (createdUid_shape _ _ _ U)) as Q. cbv iota in Q.
  assert (Hi : unescaped (uIdentity from)).
  { destruct U as [F _]. rewrite !Forall_cons_iff in F. tauto. }
  pose proof (C03_header_length _ _ _ _ _ _ _ _ _ _ _ _ _ _ A E Hi Hn) as L.
  assert (LL : lenN (jprint (headerToJson h)) = 7168) by lia. split; [exact LL|].
  unfold headerPacket. rewrite boxseal_len, LL. reflexivity.
Qed.

(* ---- a concrete case ---- *)
Definition hxKey (n : N) : bytes := repeat n 32.
Definition hxSig (n : N) : keyEntry :=
  mkKE DefaultCiphersuite fED25519 (b64enc (sha512 toy (edpub toy (hxKey n)))) (b64enc (edpub toy (hxKey n))).
Definition hxUid (esc : bool) : uidMsg :=
  mkUid (str "1.0") 0 1479254400 0 [] [] (str "alice@mute.berlin") (hxSig 1) [initDHKey toy (hxKey 2)]
    (if esc then Some (hxSig 3) else None) (repeat 65 204) [str "mute.berlin"] (str "strict") [DefaultCiphersuite] None
    [] [] (repeat 66 88) [].
Definition hxTo : uidMsg :=
  mkUid (str "1.0") 0 1479254400 0 [] [] (str "bob@mute.berlin") (hxSig 4) [initDHKey toy (hxKey 5)]
    None (repeat 65 204) [str "mute.berlin"] (str "strict") [DefaultCiphersuite] None [] [] (repeat 66 88) [].
Lemma unescaped_dec s : forallb jplain s = true -> unescaped s.
Proof. intros H c Hc. rewrite forallb_forall in H. specialize (H c Hc). unfold jplain in H. lia. Qed.
Example hx_created esc : createdUid toy esc (hxUid esc).
Proof.
  unfold createdUid. split; [repeat (apply Forall_cons; [apply unescaped_dec; destruct esc; reflexivity|]); apply Forall_nil|].
  split; [exists (hxKey 1); destruct esc; reflexivity|].
  split; [exists (initDHKey toy (hxKey 2)); split; [destruct esc; reflexivity|exists (hxKey 2); reflexivity]|].
  split; [exists (str "mute.berlin"); split; [destruct esc; reflexivity|apply unescaped_dec; reflexivity]|].
  split; [exists DefaultCiphersuite; split; [destruct esc; reflexivity|apply unescaped_dec; reflexivity]|].
  split; [destruct esc; reflexivity|]. destruct esc; [split; [reflexivity|exists (hxKey 3); reflexivity]|reflexivity].
Qed.
Local Notation hxHeader esc :=
  (newHeader toy (hxUid esc) hxTo (keHash (initDHKey toy (hxKey 6))) (initDHKey toy (hxKey 7)) (Some (initDHKey toy (hxKey 8))) None
    (str "nymaddress") 12 345 (repeat 67 204) (hxKey 9) 0).
Example hx_args esc : hdrArgs toy (hxUid esc) hxTo (keHash (initDHKey toy (hxKey 6))) (initDHKey toy (hxKey 7))
   (Some (initDHKey toy (hxKey 8))) None 12 345 (repeat 67 204) (hxKey 9) 0.
Proof.
  constructor.
  - exists (initDHKey toy (hxKey 5)), []; split; [reflexivity|exists (hxKey 5); reflexivity].
  - exists (initDHKey toy (hxKey 2)), []; split; [destruct esc; reflexivity|exists (hxKey 2); reflexivity].
  - exists (initDHKey toy (hxKey 6)); split; [|reflexivity]. exists (hxKey 6); reflexivity.
  - exists (hxKey 7); reflexivity.
  - exists (hxKey 8); reflexivity.
  - exact I.
  - lia.
  - lia.
  - apply unescaped_dec; reflexivity.
  - apply wfbb_spec; reflexivity.
  - lia.
Qed.
Example hx_builds : forall esc, exists h, hxHeader esc = Ok h.
Proof.
  intros esc. unfold newHeader.
  replace (lenN (repeat 67 204) =? EntryBase64Len) with true by reflexivity. cbn [negb].
  replace (pubKey hxTo) with (Ok (initDHKey toy (hxKey 5))) by reflexivity. cbn [rbind].
  replace (pubKey (hxUid esc)) with (Ok (initDHKey toy (hxKey 2))) by (destruct esc; reflexivity). cbn [rbind].
  assert (P : exists l, headerPadLen (uIdentity (hxUid esc)) (str "nymaddress") (uidJSON (hxUid esc)) (Some (initDHKey toy (hxKey 8))) None 0 12 345 = Ok l
     /\ (32 < l)%Z).
  { destruct esc; eexists; (split; [vm_compute; reflexivity|lia]). }
  destruct P as (l & -> & Hl). cbn [rbind].
  destruct (paddingGenerate_succeeds (fun k n => ctr toy k (zeros 16) n) (l / 2 + l mod 2)%Z (hxKey 9)) as [p Hp].
  - intros. apply ctr_len.
  - lia.
  - change (lenN (hxKey 9)) with 32. lia.
  - unfold padGen. rewrite Hp. cbn [rbind]. eexists; reflexivity.
Qed.
(* two UID messages that newHeader accepts, whose headers have different lengths *)
Theorem C03_refuted : exists C from1 from2 to rth sp next seen nym sc mc kc rand st h1 h2,
  createdUid C false from1 /\ createdUid C true from2 /\
  hdrArgs C from1 to rth sp next seen sc mc kc rand st /\ hdrArgs C from2 to rth sp next seen sc mc kc rand st /\
  newHeader C from1 to rth sp next seen nym sc mc kc rand st = Ok h1 /\
  newHeader C from2 to rth sp next seen nym sc mc kc rand st = Ok h2 /\
  lenN (jprint (headerToJson h1)) <> lenN (jprint (headerToJson h2)).
Proof.
  destruct (hx_builds false) as [h1 E1]. destruct (hx_builds true) as [h2 E2].
  exists toy, (hxUid false), (hxUid true), hxTo, (keHash (initDHKey toy (hxKey 6))), (initDHKey toy (hxKey 7)),
    (Some (initDHKey toy (hxKey 8))), None, (str "nymaddress"), 12, 345, (repeat 67 204), (hxKey 9), 0, h1, h2.
  split; [apply hx_created|]. split; [apply hx_created|]. split; [apply hx_args|]. split; [apply hx_args|].
  split; [exact E1|]. split; [exact E2|].
  assert (Hn : unescaped (str "nymaddress")) by (apply unescaped_dec; reflexivity).
  destruct (C03_created_uid_accepted _ _ _ _ _ _ _ _ _ _ _ _ _ _ [] [] [] (hx_args false) (hx_created false) Hn E1) as [-> _].
  destruct (C03_escrow_uid_refused _ _ _ _ _ _ _ _ _ _ _ _ _ _ [] [] [] (hx_args true) (hx_created true) Hn E2) as [-> _].
  discriminate.
Qed.
Example hx_length : exists h, hxHeader false = Ok h /\ lenN (jprint (headerToJson h)) = 7152.
Proof.
  destruct (hx_builds false) as [h1 E1]. exists h1. split; [exact E1|].
  assert (Hn : unescaped (str "nymaddress")) by (apply unescaped_dec; reflexivity).
  apply (C03_created_uid_accepted _ _ _ _ _ _ _ _ _ _ _ _ _ _ [] [] [] (hx_args false) (hx_created false) Hn E1).
Qed.

Print Assumptions C03_packet_fixed_size.
Print Assumptions C03_header_length.
Print Assumptions C03_created_uid_accepted.
Print Assumptions C03_escrow_uid_refused.
Print Assumptions C03_refuted.
