(* Properties of session states: C75, C102, C103, C104, C105. *)
From Verif Require Import Base Base64Model Base64Proofs CodecModel JsonModel Maps CryptoModel StoreModel KeysModel KeysProofs MsgFormatModel HeaderModel ProtoModel ProtoProofs ProtoFirst SessState SessCount ConvModel ConvSteps ConvInv ConvSend ConvMain ConvTrack ConvDyn ConvStuck ConvRun ConvSimul ConvToy ConvExample ConvCross.
Local Open Scope N_scope.

(* ---- C75 ---- *)
(* Both parties have proposed a next session key and have not seen a proposal of the other; neither has a reason to give up
   its session for one that the other one starts; the messages on the way were written before their senders saw a proposal.
   Whatever is sent (reset messages excepted), lost, reordered or received from then on, both keep their session keys. *)
Theorem C75_deadlock_partial : forall C P c0 c c',
  reach C P c0 c ->
  (forall p, exists ss, stateOf C P p c = Some ss /\ waits P p ss) ->
  (forall p m, In m (cNet c p) -> stuckMsg C P p m) ->
  later C P c c' -> noColl C P (cUsed c') ->
  forall p, exists ss ss', stateOf C P p c = Some ss /\ stateOf C P p c' = Some ss' /\
    stSenderPub ss' = stSenderPub ss /\ stRecipTemp ss' = stRecipTemp ss /\ stNextSeen ss' = None.
Proof.
  intros C P c0 c c' R W M L NC p.
  destruct (W true) as (s1 & A1 & A2). destruct (W false) as (s2 & B1 & B2).
  destruct (stuck_stays C P (fun q => stSenderPub (if q then s1 else s2)) (fun q => stRecipTemp (if q then s1 else s2)) c0 c c' R) as (_ & SS & _); try assumption.
  - intros [|]; [exists s1|exists s2]; auto.
  - destruct (SS p) as (ss' & E1 & W1 & E2 & E3). destruct p; [exists s1, ss'|exists s2, ss']; (split; [assumption|]); (split; [exact E1|]); (split; [exact E2|]); (split; [exact E3|]); apply (wt_seen _ _ _ W1).
Qed.
(* The full statement, "the conversation can still agree on a new session later", is false: messages in order, none lost; alice
   writes twice before bob answers, and proposes a key in the second message. *)
Theorem C75_refuted : exists C P c0 c, orderly C P c0 c /\ (forall used, noColl C P used) /\
  (forall p, exists ss, stateOf C P p c = Some ss /\ stNextSender ss <> None /\ stNextSeen ss = None) /\
  (exists s t, stateOf C P true c = Some s /\ stateOf C P false c = Some t /\ agree s t) /\
  forall c', later C P c c' -> forall p, exists ss ss', stateOf C P p c = Some ss /\ stateOf C P p c' = Some ss' /\
    stSenderPub ss' = stSenderPub ss /\ stRecipTemp ss' = stRecipTemp ss.
Proof.
  destruct cross as (c & O & W & A & N1 & m & N2 & M). exists toyI, cxP, cxStart, c. split; [exact O|]. split; [apply toyI_noColl|]. split; [|split; [exact A|]].
  - intros p. destruct (W p) as (ss & E & [W1 W2 _]). exists ss. auto.
  - intros c' L p. destruct (C75_deadlock_partial toyI cxP cxStart c c' (orderly_reach _ _ _ _ O) W) with (p := p) as (ss & ss' & E1 & E2 & E3 & E4 & _); try assumption.
    + intros [|] m' Hm; [rewrite N2 in Hm; destruct Hm as [<-|[]]; exact M|rewrite N1 in Hm; destruct Hm].
    + apply toyI_noColl.
    + exists ss, ss'. auto.
Qed.
(* When only one party proposes, both change to the proposed session: proposal, answer, next message. *)
Theorem C75_agree_partial : forall C P p c0 c c1 c2 c3 c4 c5 c6 a1 r1 m1 ra1 a2 r2 m2 ra2 a3 r3 m3 ra3 s t k,
  reach C P c0 c -> stateOf C P p c = Some s -> stateOf C P (negb p) c = Some t -> agree s t ->
  stNextSender s = Some k -> stNextSender t = None -> stNextSeen t = None ->
  sends C P p a1 r1 m1 c c1 -> gets C P (negb p) ra1 m1 c1 c2 ->
  sends C P (negb p) a2 r2 m2 c2 c3 -> gets C P p ra2 m2 c3 c4 ->
  sends C P p a3 r3 m3 c4 c5 -> gets C P (negb p) ra3 m3 c5 c6 ->
  eStatus a1 <> StatusReset -> eStatus a2 <> StatusReset -> eStatus a3 <> StatusReset -> noColl C P (cUsed c6) ->
  exists s' t', stateOf C P p c6 = Some s' /\ stateOf C P (negb p) c6 = Some t' /\ agree s' t' /\
    stSenderPub s' = k /\ stRecipTemp s' = initDHKey C (dPriv ra1).
Proof. exact change_session. Qed.

(* ---- C102 ---- *)
(* The receiver decrypts a message of a session it knows: afterwards its private key of that session is gone. *)
Theorem C102_private_key_deleted : forall C ra msg w x w' hp i h s ke,
  receive C ra msg w = (Ok x, w') -> readsHeader C ra msg hp i h s -> pubKey (idUid i) = Ok ke ->
  mget (calcKey C (keHash ke) (keHash (hSenderPub h)) (hRecipTempHash h) (keHash (hSessPub h))) (sessions (wStore w)) <> None ->
  forall e, mget (hRecipTempHash h) (skeys (wStore w')) = Some e -> skPriv e = [].
Proof.
  intros C ra msg w x w' hp i h s ke E RH PK KN. apply (receive_deletes C ra msg w x w' hp i h s ke E RH PK). unfold mhas.
  destruct (mget _ _); [reflexivity|now destruct KN].
Qed.

(* ---- C103 ---- *)
(* number of messages sent in a conversation: former sessions plus this one, as 64-bit numbers *)
Definition sentSoFar (s : state) : N := (stSessCount s + stMsgCount s) mod 2 ^ 64.
(* Encrypt adds one. *)
Theorem C103_encrypt_counts : forall C a r w nym w' fke fk tke tk ss,
  pubKey (idUid (eFrom a)) = Ok fke -> pub32 fke = Ok fk -> pubKey (eTo a) = Ok tke -> pub32 tke = Ok tk ->
  encrypt C a r w = (Ok nym, w') -> eStatus a <> StatusReset -> mget (calcStateKey C fk tk) (states (wStore w)) = Some ss ->
  exists ss', mget (calcStateKey C fk tk) (states (wStore w')) = Some ss' /\ sentSoFar ss' = (sentSoFar ss + 1) mod 2 ^ 64 /\ stKeyInit ss' = stKeyInit ss.
Proof.
  intros C a r w nym w' fke fk tke tk ss F1 F2 T1 T2 E NR G. pose proof (encrypt_state C a r w nym w' fke tke fk tk F1 F2 T1 T2 E) as Q. cbv zeta in Q.
  apply N.eqb_neq in NR. rewrite NR, G in Q. exists (stateNext C a r ss). split; [exact Q|]. split; [apply total_next|reflexivity].
Qed.
(* Decrypt never changes it in a conversation that is not in its first, KeyInit, session; that stays so.  For every message and
   every result, errors and panics included, and for all conversations in the store. *)
Theorem C103_decrypt_keeps : forall C ra msg w r w', receive C ra msg w = (r, w') ->
  forall key ss, mget key (states (wStore w)) = Some ss -> stKeyInit ss = false ->
  exists ss', mget key (states (wStore w')) = Some ss' /\ sentSoFar ss' = sentSoFar ss /\ stKeyInit ss' = false.
Proof.
  intros C ra msg w r w' E key ss G K. destruct (receive_keeps _ _ _ _ _ _ E _ _ G) as (ss' & E1 & [(E2 & E3 & _)|(Q & _)]); [|congruence].
  exists ss'. auto.
Qed.
(* In the KeyInit session it is kept, too, or the session is given up for one that the other party has started. *)
Theorem C103_decrypt_first : forall C ra msg w r w', receive C ra msg w = (r, w') ->
  forall key ss, mget key (states (wStore w)) = Some ss -> stKeyInit ss = true ->
  exists ss', mget key (states (wStore w')) = Some ss' /\ (sentSoFar ss' = sentSoFar ss \/ stSessCount ss' = 0 /\ stMsgCount ss' = 0 /\ stKeyInit ss' = false).
Proof.
  intros C ra msg w r w' E key ss G K. destruct (receive_keeps _ _ _ _ _ _ E _ _ G) as (ss' & E1 & [(E2 & _)|(_ & Q)]); exists ss'; auto.
Qed.

(* ---- C104 ---- *)
Theorem C104_encrypt_others : forall C a r w nym w' fke fk tke tk,
  pubKey (idUid (eFrom a)) = Ok fke -> pub32 fke = Ok fk -> pubKey (eTo a) = Ok tke -> pub32 tke = Ok tk -> encrypt C a r w = (Ok nym, w') ->
  forall k, k <> calcStateKey C fk tk -> mget k (states (wStore w')) = mget k (states (wStore w)).
Proof. exact encrypt_others. Qed.
Theorem C104_decrypt_others : forall C ra msg w r w' hp i h s ke rp sp, receive C ra msg w = (r, w') -> readsHeader C ra msg hp i h s ->
  pubKey (idUid i) = Ok ke -> pub32 ke = Ok rp -> pub32 (hSenderPub h) = Ok sp ->
  forall k, k <> calcStateKey C rp sp -> mget k (states (wStore w')) = mget k (states (wStore w)).
Proof. exact receive_others. Qed.
(* a message whose header cannot be opened changes nothing at all *)
Theorem C104_unreadable : forall C ra msg w r w', receive C ra msg w = (r, w') -> (forall hp i h s, ~ readsHeader C ra msg hp i h s) -> w' = w /\ forall x, r <> Ok x.
Proof. exact receive_unread. Qed.

(* ---- C105 ---- *)
(* Both parties write their first message before they receive the other's: after both were received, both use the session of
   the party with the smaller name. *)
Theorem C105_simultaneous_start : forall C P p c0 c1 c2 c3 c4 a r m a' r' m' ra ra', start C P c0 ->
  sends C P p a r m c0 c1 -> sends C P (negb p) a' r' m' c1 c2 -> gets C P (negb p) ra m c2 c3 -> gets C P p ra' m' c3 c4 ->
  noColl C P (cUsed c4) -> bltb (pName (P p)) (pName (P (negb p))) = true ->
  exists s t, stateOf C P p c4 = Some s /\ stateOf C P (negb p) c4 = Some t /\
    stSenderPub s = initDHKey C (rSessPriv r) /\ stRecipTemp t = initDHKey C (rSessPriv r) /\ stRecipTemp s = stSenderPub t.
Proof.
  intros C P p c0 c1 c2 c3 c4 a r m a' r' m' ra ra' ST S1 S2 G1 G2 NC LT.
  destruct (simultaneous C P p c0 c1 c2 c3 c4 a r m a' r' m' ra ra' ST S1 S2 G1 G2 NC LT) as (s & t & E1 & E2 & [A1 A2] & E3 & _).
  exists s, t. split; [exact E1|]. split; [exact E2|]. split; [exact E3|]. split; [congruence|exact A2].
Qed.

(* ---- cases that meet the hypotheses ---- *)
Example C75_deadlock_case : exists c, reach toyI cxP cxStart c /\ (forall p, exists ss, stateOf toyI cxP p c = Some ss /\ waits cxP p ss) /\
  (forall p m, In m (cNet c p) -> stuckMsg toyI cxP p m) /\ cNet c true <> [].
Proof.
  destruct cross as (c & O & W & A & N1 & m & N2 & M). exists c. split; [now apply orderly_reach|]. split; [exact W|]. split.
  - intros [|] m' Hm; [rewrite N2 in Hm; destruct Hm as [<-|[]]; exact M|rewrite N1 in Hm; destruct Hm].
  - rewrite N2. discriminate.
Qed.
Example C75_agree_case : exists c c1 c2 c3 c4 c5 c6 a1 r1 m1 ra1 a2 r2 m2 ra2 a3 r3 m3 ra3 s t k, let p := false in let P := cxP in let C := toyI in
  reach C P cxStart c /\ stateOf C P p c = Some s /\ stateOf C P (negb p) c = Some t /\ agree s t /\ stNextSender s = Some k /\ stNextSender t = None /\ stNextSeen t = None /\
  sends C P p a1 r1 m1 c c1 /\ gets C P (negb p) ra1 m1 c1 c2 /\ sends C P (negb p) a2 r2 m2 c2 c3 /\ gets C P p ra2 m2 c3 c4 /\
  sends C P p a3 r3 m3 c4 c5 /\ gets C P (negb p) ra3 m3 c5 c6 /\
  eStatus a1 <> StatusReset /\ eStatus a2 <> StatusReset /\ eStatus a3 <> StatusReset /\ noColl C P (cUsed c6).
Proof.
  destruct exchange as (c1 & c2 & c3 & c4 & c5 & c6 & c7 & c8 & a1 & r1 & m1 & ra1 & a2 & r2 & m2 & ra2 & a3 & r3 & m3 & ra3 & s & t & k & R & _ & _ & H1 & H2 & H3 & H4 & H5 & H6 & H7 & H8 & H9 & H10 & H11 & H12 & H13 & H14 & H15).
  exists c2, c3, c4, c5, c6, c7, c8, a1, r1, m1, ra1, a2, r2, m2, ra2, a3, r3, m3, ra3, s, t, k. cbv zeta. cbn [negb].
  repeat (split; [assumption|]). apply toyI_noColl.
Qed.
Example C105_case : exists c1 c2 c3 c4 a r m a' r' m' ra ra', start toyI cxP cxStart /\
  sends toyI cxP true a r m cxStart c1 /\ sends toyI cxP false a' r' m' c1 c2 /\ gets toyI cxP false ra m c2 c3 /\ gets toyI cxP true ra' m' c3 c4 /\
  noColl toyI cxP (cUsed c4) /\ bltb (pName (cxP true)) (pName (cxP false)) = true.
Proof.
  destruct atOnce as (c1 & c2 & c3 & c4 & a & r & m & a' & r' & m' & ra & ra' & H1 & H2 & H3 & H4). exists c1, c2, c3, c4, a, r, m, a', r', m', ra, ra'.
  split; [apply cx_start|]. repeat (split; [assumption|]). split; [apply toyI_noColl|]. vm_compute. reflexivity.
Qed.
(* alice gets bob's answer to her first message; her private session key was stored when she sent it *)
Example C102_case : exists ra msg w x w' hp i h s ke e,
  receive toyI ra msg w = (Ok x, w') /\ readsHeader toyI ra msg hp i h s /\ pubKey (idUid i) = Ok ke /\
  mget (calcKey toyI (keHash ke) (keHash (hSenderPub h)) (hRecipTempHash h) (keHash (hSessPub h))) (sessions (wStore w)) <> None /\
  mget (hRecipTempHash h) (skeys (wStore w)) = Some e /\ skPriv e <> [] /\ exists rp sp, pub32 ke = Ok rp /\ pub32 (hSenderPub h) = Ok sp.
Proof.
  destruct (cx_send 5 cxStart true false) as (m0 & c1 & S0 & A1 & N1 & N1'); [lia|exact cxAt_start|]. cbn [cxStart cNet app] in N1. cbn [cxStart cNet negb] in N1'.
  destruct (cx_get (5 + 2) c1 false m0 []) as (c2 & G0 & A2 & N2 & N2'); [lia|exact A1|exact N1|]. rewrite N1' in N2'. cbn [negb] in N2.
  destruct (first_exchange toyI cxP true _ _ _ _ _ _ _ cx_start S0 G0 (toyI_noColl _ _)) as (kb & ny & nym & K & P1 & P2 & Q2). cbn [negb] in Q2.
  destruct (cx_send 8 c2 false false) as (m1 & c3 & S1 & A3 & N3 & N3'); [lia|exact A2|]. rewrite N2' in N3. cbn [app] in N3.
  destruct (sends_state toyI cxP _ _ _ _ _ _ _ (orderly_reach _ _ _ _ (ca_ord _ _ A2)) S1 (toyI_noColl _ _)) as (s1 & h1 & P3 & H1 & CA1 & E1). cbn [negb] in CA1.
  change (eStatus (cxArgs false hello 0) =? StatusReset) with false in E1. cbv iota in E1. rewrite Q2 in E1.
  assert (P3' : stateOf toyI cxP true c3 = stateOf toyI cxP true c2) by (pose proof (sends_other _ _ _ _ _ _ _ _ S1) as GO; cbn [negb] in GO; unfold stateOf; rewrite GO; reflexivity). rewrite P2 in P3'.
  destruct (cx_get 10 c3 true m1 []) as (c4 & (RO & _ & l1 & l2 & x & w & _ & RU & _) & _); [lia|exact A3|exact N3|].
  destruct (CA1 _ RO) as (hp & i & s & RH & [[HI1 [ks HI2]] HI3]).
  assert (CU : current h1 (stateNew toyI (cxRnd 5 (5 + 1) false) (initDHKey toyI kb) ny) = true).
  { apply (agree_current toyI cxP false s1); [|exact H1]. rewrite E1. split; reflexivity. }
  pose proof (current_known toyI cxP true h1 c3 cxStart _ (orderly_reach _ _ _ _ (ca_ord _ _ A3)) (toyI_noColl _ _) P3' CU) as KN.
  assert (ST : cStore c3 true = cStore c1 true).
  { pose proof (sends_other _ _ _ _ _ _ _ _ S1) as X1. pose proof (gets_other _ _ _ _ _ _ _ G0) as X2. cbn [negb] in X1, X2. now rewrite X1. }
  assert (SK : exists e, mget (keHash (initDHKey toyI (rSessPriv (cxRnd 5 (5 + 1) false)))) (skeys (cStore c1 true)) = Some e /\ skPriv e = b64enc (rSessPriv (cxRnd 5 (5 + 1) false))).
  { destruct S0 as (_ & _ & _ & nym0 & w0 & EN & _ & ->). cbn [cStore]. rewrite upd_same. unfold run in EN. apply (first_skey _ _ _ _ _ _ EN). intros fke fk tke tk _ _ _ _. right. reflexivity. }
  destruct SK as (e & SK1 & SK2). unfold current in CU. apply andb_prop in CU as [CU _]. apply beq_spec in CU. cbn [stateNew stSenderPub] in CU.
  exists (cxRa true 10), (sWire m1), (mkWorld (cStore c3 true) [] []), x, w, hp, i, h1, s, (initDHKey toyI (sec cxP true)), e.
  split; [exact RU|]. split; [exact RH|]. split; [exact (pubKey_cons _ _ _ HI2)|]. split; [|split].
  - cbn [wStore]. rewrite (hf_pub _ _ _ _ _ H1), !keHash_init. unfold sessIn, mhas in KN. cbn [negb] in KN. intros Q. rewrite Q in KN. discriminate.
  - cbn [wStore]. rewrite CU, ST. exact SK1.
  - split; [|rewrite (hf_pub _ _ _ _ _ H1); eexists _, _; split; apply initDHKey_pub32]. rewrite SK2. intros Q. pose proof (b64dec_enc (rSessPriv (cxRnd 5 (5 + 1) false))) as D. rewrite Q in D. assert (WK : wfb (rSessPriv (cxRnd 5 (5 + 1) false))) by apply keyN_ok. apply D in WK. discriminate.
Qed.
(* sending and receiving in a conversation that is not in its KeyInit session *)
Example C103_encrypt_case : exists a r w nym w' fke fk tke tk ss, pubKey (idUid (eFrom a)) = Ok fke /\ pub32 fke = Ok fk /\ pubKey (eTo a) = Ok tke /\ pub32 tke = Ok tk /\
  encrypt toyI a r w = (Ok nym, w') /\ eStatus a <> StatusReset /\ mget (calcStateKey toyI fk tk) (states (wStore w)) = Some ss.
Proof.
  destruct exchange as (c1 & c2 & c3 & c4 & c5 & c6 & c7 & c8 & a1 & r1 & m1 & ra1 & a2 & r2 & m2 & ra2 & a3 & r3 & m3 & ra3 & s & t & k & R & _ & _ & H1 & _ & _ & _ & _ & _ & (SO & _ & _ & nym & w & EN & _) & _ & _ & _ & _ & _ & NR & _).
  destruct (sk_from _ _ _ _ _ SO) as [[F1 [ks F2]] F3]. destruct (sk_to _ _ _ _ _ SO) as [T1 [ks' T2]].
  exists a1, r1, (mkWorld (cStore c2 false) [] []), nym, w. eexists _, _, _, _, s.
  split; [exact (pubKey_cons _ _ _ F2)|]. split; [apply initDHKey_pub32|]. split; [exact (pubKey_cons _ _ _ T2)|]. split; [apply initDHKey_pub32|]. split; [exact EN|]. split; [exact NR|]. exact H1.
Qed.
Example C103_decrypt_case : exists ra msg w r w' key ss, receive toyI ra msg w = (r, w') /\ mget key (states (wStore w)) = Some ss /\ stKeyInit ss = false /\ (exists x, r = Ok x).
Proof.
  destruct (cx_send 5 cxStart true false) as (m0 & c1 & S0 & A1 & N1 & N1'); [lia|exact cxAt_start|]. cbn [cxStart cNet app] in N1. cbn [cxStart cNet negb] in N1'.
  destruct (cx_get (5 + 2) c1 false m0 []) as (c2 & G0 & A2 & N2 & N2'); [lia|exact A1|exact N1|]. rewrite N1' in N2'. cbn [negb] in N2.
  destruct (first_exchange toyI cxP true _ _ _ _ _ _ _ cx_start S0 G0 (toyI_noColl _ _)) as (kb & ny & nym & K & P1 & P2 & Q2). cbn [negb] in Q2.
  destruct (cx_send 8 c2 true false) as (m1 & c3 & S1 & A3 & N3 & N3'); [lia|exact A2|]. rewrite N2 in N3. cbn [app] in N3.
  destruct (cx_get 10 c3 false m1 []) as (c4 & (RO & _ & l1 & l2 & x & w & _ & RU & _) & _); [lia|exact A3|exact N3|].
  assert (P3' : stateOf toyI cxP false c3 = stateOf toyI cxP false c2) by (pose proof (sends_other _ _ _ _ _ _ _ _ S1) as GO; cbn [negb] in GO; unfold stateOf; rewrite GO; reflexivity). rewrite Q2 in P3'.
  eexists _, _, (mkWorld (cStore c3 false) [] []), (Ok x), w, (stateKey toyI cxP false), _. split; [exact RU|]. split; [exact P3'|]. split; [reflexivity|]. exists x. reflexivity.
Qed.

Example C104_decrypt_case : exists ra msg w r w' hp i h s ke rp sp, receive toyI ra msg w = (r, w') /\ readsHeader toyI ra msg hp i h s /\
  pubKey (idUid i) = Ok ke /\ pub32 ke = Ok rp /\ pub32 (hSenderPub h) = Ok sp.
Proof.
  destruct C102_case as (ra & msg & w & x & w' & hp & i & h & s & ke & e & H1 & H2 & H3 & _ & _ & _ & rp & sp & H4 & H5).
  exists ra, msg, w, (Ok x), w', hp, i, h, s, ke, rp, sp. auto.
Qed.
(* three zero bytes: no message *)
Example C104_unreadable_case : forall ra hp i h s, ~ readsHeader toyI ra (str "AAAA") hp i h s.
Proof. intros ra hp i h s (raw & pre & s0 & E1 & E2 & _). vm_compute in E1. apply (someInj _ _) in E1. subst raw. vm_compute in E2. discriminate. Qed.

Print Assumptions C75_deadlock_partial.
Print Assumptions C75_refuted.
Print Assumptions C75_agree_partial.
Print Assumptions C102_private_key_deleted.
Print Assumptions C103_encrypt_counts.
Print Assumptions C103_decrypt_keeps.
Print Assumptions C103_decrypt_first.
Print Assumptions C104_encrypt_others.
Print Assumptions C104_decrypt_others.
Print Assumptions C104_unreadable.
Print Assumptions C105_simultaneous_start.
