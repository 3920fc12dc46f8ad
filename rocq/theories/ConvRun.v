(* Single steps of a conversation and the session states after them. *)
From Verif Require Import Base Base64Model CodecModel JsonModel Maps CryptoModel StoreModel KeysModel KeysProofs MsgFormatModel HeaderModel ProtoModel ProtoProofs ProtoFirst SessState ConvModel ConvSteps ConvInv ConvProofs ConvSend ConvRecv ConvMain ConvTrack ConvDyn.
Local Open Scope N_scope.

Section Run.
Variable C : Crypto.
Variable P : bool -> party.
Notation sec := (sec P).
(* p sends m *)
Definition sends (p : bool) (a : encArgs) (r : encRnd) (m : sent) (c c' : conv) : Prop :=
  sendOk C P p a r /\ numOf C P p a (cStore c p) + 1 < 2 ^ 63 /\ fresh C [rHeaderPriv r; rSessPriv r] (cUsed c) /\
  exists nym w, run (encrypt C a r) (cStore c p) = (Ok nym, w) /\ m = mkSent a (sessOf C P p (wStore w)) (numOf C P p a (cStore c p)) (wOut w) /\
    c' = mkConv (upd (cStore c) p (wStore w)) (upd (cNet c) p (cNet c p ++ [m])) (rHeaderPriv r :: rSessPriv r :: cUsed c).
(* p receives m and decrypts it *)
Definition gets (p : bool) (ra : decArgs) (m : sent) (c c' : conv) : Prop :=
  recvOk C P p ra /\ fresh C [dPriv ra] (cUsed c) /\
  exists l1 l2 x w, cNet c (negb p) = l1 ++ m :: l2 /\ run (receive C ra (sWire m)) (cStore c p) = (Ok x, w) /\
    c' = mkConv (upd (cStore c) p (wStore w)) (upd (cNet c) (negb p) (l1 ++ l2)) (dPriv ra :: cUsed c).
Lemma sends_step p a r m c c' : sends p a r m c c' -> step C P c c'.
Proof. intros (SO & NB & FR & nym & w & EN & -> & ->). eapply StSend; eassumption. Qed.
Lemma gets_step p ra m c c' : gets p ra m c c' -> step C P c c'.
Proof. intros (RO & FR & l1 & l2 & x & w & NT & RU & ->). eapply StRecv; try eassumption. now left. Qed.
Definition stateOf (p : bool) (c : conv) : option state := mget (stateKey C P p) (states (cStore c p)).
Lemma sends_other p a r m c c' : sends p a r m c c' -> cStore c' (negb p) = cStore c (negb p).
Proof. intros (_ & _ & _ & nym & w & _ & _ & ->). cbn [cStore]. apply upd_other. Qed.
Lemma gets_other p ra m c c' : gets p ra m c c' -> cStore c' (negb p) = cStore c (negb p).
Proof. intros (_ & _ & l1 & l2 & x & w & _ & _ & ->). cbn [cStore]. apply upd_other. Qed.
Lemma used_sends p a r m c c' : sends p a r m c c' -> noColl C P (cUsed c') -> noColl C P (cUsed c).
Proof. intros S. apply noColl_incl. eapply step_used, sends_step, S. Qed.
Lemma used_gets p ra m c c' : gets p ra m c c' -> noColl C P (cUsed c') -> noColl C P (cUsed c).
Proof. intros S. apply noColl_incl. eapply step_used, gets_step, S. Qed.

(* the state after sending, and the header *)
Lemma sends_state_nym p a r m c c' c0 : reach C P c0 c -> sends p a r m c c' -> noColl C P (cUsed c') ->
  exists ss h, stateOf p c' = Some ss /\ hdrFor C P p ss h /\ carries C P (negb p) m h /\ hNym h = eNym a /\
    match (if eStatus a =? StatusReset then None else stateOf p c) with
    | Some s0 => ss = stateNext C a r s0
    | None => exists kb ny, In kb (pKIs (P (negb p))) /\ mget (pName (P (negb p))) (pubKEs (cStore c p)) = Some (initDHKey C kb, ny) /\ ss = stateNew C r (initDHKey C kb) ny
    end.
Proof.
  intros R S NC. destruct (reach_inv C P _ _ R (used_sends _ _ _ _ _ _ S NC)) as [g I]. destruct S as (SO & NB & FR & nym & w & EN & -> & ->).
  cbn [cUsed] in NC. destruct (send_carries_nym C P c g p a r nym w I NC SO NB FR EN (sessOf C P p (wStore w)) (numOf C P p a (cStore c p))) as (ss & h & MS & HF & CA & HN).
  exists ss, h. unfold stateOf at 1. cbn [cStore]. rewrite upd_same. split; [exact MS|]. split; [exact HF|]. split; [exact CA|]. split; [exact HN|].
  pose proof (send_track C P p a r _ nym w SO EN) as TR. fold (stateOf p c) in TR. destruct (if eStatus a =? StatusReset then None else stateOf p c) as [s0|].
  - rewrite MS in TR. now apply someInj in TR.
  - destruct TR as (rt & ny & T1 & T2). rewrite MS in T2. apply someInj in T2. destruct (b_pub _ _ _ _ _ (i_base _ _ _ _ I p) _ _ T1) as (kb & K1 & K2). subst rt. exists kb, ny. auto.
Qed.
Lemma sends_state p a r m c c' c0 : reach C P c0 c -> sends p a r m c c' -> noColl C P (cUsed c') ->
  exists ss h, stateOf p c' = Some ss /\ hdrFor C P p ss h /\ carries C P (negb p) m h /\
    match (if eStatus a =? StatusReset then None else stateOf p c) with
    | Some s0 => ss = stateNext C a r s0
    | None => exists kb ny, In kb (pKIs (P (negb p))) /\ mget (pName (P (negb p))) (pubKEs (cStore c p)) = Some (initDHKey C kb, ny) /\ ss = stateNew C r (initDHKey C kb) ny
    end.
Proof.
  intros R S NC. destruct (sends_state_nym _ _ _ _ _ _ _ R S NC) as (ss & h & A & B & D & _ & E). exists ss, h. auto.
Qed.
(* the state after receiving *)
Lemma gets_state p ra m h c c' c0 : reach C P c0 c -> gets p ra m c c' -> noColl C P (cUsed c') -> carries C P p m h -> hSenderPub h = initDHKey C (sec (negb p)) ->
  exists stored, let kn := mhas (sessIn C P p h) (sessions (cStore c p)) in
    stateOf p c' = after C (pName (P p)) h (dPriv ra) stored kn (option_map fst (mget (hRecipTempHash h) (privKEs (cStore c p)))) (stateOf p c) /\
    (forall ss, stateOf p c = Some ss -> stNextSender ss <> None -> kn = true -> current h ss = true -> hNext h <> None ->
       (forall own, stNextSender ss = Some own -> isHash (keHash own) (hSeen h) = true) -> stNextSender ss = Some stored).
Proof.
  intros R S NC CA HP. destruct (reach_inv C P _ _ R (used_gets _ _ _ _ _ S NC)) as [g I]. destruct S as (RO & FR & l1 & l2 & x & w & NT & RU & ->).
  cbn [cUsed] in NC. destruct (recv_track C P c g p ra l1 m l2 h _ w I NC NT RO FR CA HP RU) as (stored & T1 & _ & T3). exists stored. cbv zeta in *.
  unfold stateOf at 1. cbn [cStore]. rewrite upd_same. auto.
Qed.
(* the current session is known *)
Lemma current_known p h c c0 ss : reach C P c0 c -> noColl C P (cUsed c) -> stateOf p c = Some ss -> current h ss = true -> mhas (sessIn C P p h) (sessions (cStore c p)) = true.
Proof.
  intros R NC S CU. destruct (reach_inv C P _ _ R NC) as [g I]. pose proof (i_st _ _ _ _ I p) as SI. unfold stInv in SI. fold (stateOf p c) in SI. rewrite S in SI.
  destruct SI as (x & y & on & os & G & _). unfold current in CU. apply andb_prop in CU as [C1 C2]. apply beq_spec in C1, C2.
  rewrite (k_send _ _ _ _ _ _ _ _ _ G), keHash_init in C1. rewrite (k_temp _ _ _ _ _ _ _ _ _ G), keHash_init in C2.
  destruct (b_sess _ _ _ _ _ (i_base _ _ _ _ I p) x y (k_cur _ _ _ _ _ _ _ _ _ G)) as (s & root & cr & n & A1 & _).
  unfold mhas. replace (sessIn C P p h) with (SK C P p x y) by (unfold sessIn, SK, skOf, sessKeyOf, idHash; rewrite C1, C2; reflexivity). rewrite A1. reflexivity.
Qed.
(* the session that both sides have prepared is known *)
Lemma next_known p h c c0 ss own s : reach C P c0 c -> noColl C P (cUsed c) -> stateOf p c = Some ss -> stNextSender ss = Some own -> stNextSeen ss = Some s ->
  hRecipTempHash h = keHash own -> keHash (hSessPub h) = keHash s -> mhas (sessIn C P p h) (sessions (cStore c p)) = true.
Proof.
  intros R NC S E1 E2 C1 C2. destruct (reach_inv C P _ _ R NC) as [g I]. pose proof (i_st _ _ _ _ I p) as SI. unfold stInv in SI. fold (stateOf p c) in SI. rewrite S in SI.
  destruct SI as (x & y & on & os & G & _). rewrite (k_next _ _ _ _ _ _ _ _ _ G) in E1. rewrite (k_seen _ _ _ _ _ _ _ _ _ G) in E2.
  destruct os as [o|]; [|discriminate]. destruct (k_seenT _ _ _ _ _ _ _ _ _ G o eq_refl) as (n & root & cr & -> & A1 & _). cbn [option_map] in *. apply someInj in E1, E2. subst own s.
  rewrite keHash_init in C1, C2. destruct (b_sess _ _ _ _ _ (i_base _ _ _ _ I p) n o A1) as (st & root' & cr' & k & A2 & _).
  unfold mhas. replace (sessIn C P p h) with (SK C P p n o) by (unfold sessIn, SK, skOf, sessKeyOf, idHash; rewrite C1, C2; reflexivity). rewrite A2. reflexivity.
Qed.
Lemma ki_stored p kb c c0 : reach C P c0 c -> noColl C P (cUsed c) -> In kb (pKIs (P p)) -> mget (hashText C (dhpub C kb)) (privKEs (cStore c p)) = Some (initDHKey C kb, kb).
Proof. intros R NC K. destruct (reach_inv C P _ _ R NC) as [g I]. apply (b_priv _ _ _ _ _ (i_base _ _ _ _ I p) _ K). Qed.
(* a proposed key is a new one *)
Lemma next_new p c c0 ss own : reach C P c0 c -> noColl C P (cUsed c) -> stateOf p c = Some ss -> stNextSender ss = Some own -> keHash own <> keHash (stSenderPub ss).
Proof.
  intros R NC S E1. destruct (reach_inv C P _ _ R NC) as [g I]. pose proof (i_st _ _ _ _ I p) as SI. unfold stInv in SI. fold (stateOf p c) in SI. rewrite S in SI.
  destruct SI as (x & y & on & os & G & _). rewrite (k_next _ _ _ _ _ _ _ _ _ G) in E1. destruct on as [n|]; [|discriminate]. cbn [option_map] in E1. apply someInj in E1. subst own.
  rewrite (k_send _ _ _ _ _ _ _ _ _ G), !keHash_init. destruct (k_nextT _ _ _ _ _ _ _ _ _ G n eq_refl) as (T1 & T2 & _).
  destruct (b_tags _ _ _ _ _ (i_base _ _ _ _ I p) x y (k_cur _ _ _ _ _ _ _ _ _ G)) as [T3 _].
  apply (hash_ne C P (cUsed c) (i_used _ _ _ _ I) NC); [apply (t_in _ _ _ (i_tags _ _ _ _ I) _ _ T1)|eapply ownT_used; [apply (i_tags _ _ _ _ I)|exact T3]|exact T2].
Qed.

(* the first message and its receipt *)
Lemma first_exchange_nym p c0 c1 c2 a r m ra : start C P c0 -> sends p a r m c0 c1 -> gets (negb p) ra m c1 c2 -> noColl C P (cUsed c2) ->
  exists kb ny, In kb (pKIs (P (negb p))) /\ stateOf p c1 = Some (stateNew C r (initDHKey C kb) ny) /\ stateOf p c2 = Some (stateNew C r (initDHKey C kb) ny) /\
    stateOf (negb p) c2 = Some (mkState 0 0 0 (initDHKey C (rSessPriv r)) (initDHKey C kb) (Some (initDHKey C (dPriv ra))) None (eNym a) false).
Proof.
  intros ST S1 G1 NC2. assert (R0 : reach C P c0 c0) by now constructor. pose proof (used_gets _ _ _ _ _ G1 NC2) as NC1.
  assert (R1 : reach C P c0 c1) by (eapply RStep; [exact R0|eapply sends_step; exact S1]).
  destruct (sends_state_nym _ _ _ _ _ _ _ R0 S1 NC1) as (s1 & h1 & P1 & H1 & CA1 & HN1 & E1). unfold stateOf at 1 in E1. rewrite (st_state _ _ _ ST p) in E1.
  replace (if eStatus a =? StatusReset then None else None) with (@None state) in E1 by (destruct (eStatus a =? StatusReset); reflexivity).
  destruct E1 as (kb & ny & K1 & K2 & E1). exists kb, ny. split; [exact K1|]. rewrite P1, E1. split; [reflexivity|]. split.
  - rewrite <- E1, <- P1. unfold stateOf. pose proof (gets_other _ _ _ _ _ G1) as GO. rewrite negb_involutive in GO. rewrite GO. reflexivity.
  - pose proof (hf_pub _ _ _ _ _ H1) as HP1. rewrite <- (negb_involutive p) in HP1. destruct (gets_state _ _ _ _ _ _ _ R1 G1 NC2 CA1 HP1) as (st1 & P2 & _). cbv zeta in P2.
    unfold stateOf at 2 in P2. rewrite (sends_other _ _ _ _ _ _ S1), (st_sessions _ _ _ ST), (st_state _ _ _ ST) in P2. cbn [mhas mget after] in P2.
    rewrite (hf_temp _ _ _ _ _ H1), E1 in P2. cbn [stateNew stRecipTemp] in P2. rewrite keHash_init in P2.
    rewrite <- (sends_other _ _ _ _ _ _ S1), (ki_stored _ _ _ _ R1 NC1 K1) in P2. cbn [option_map fst afterUnknown] in P2.
    rewrite (hf_next _ _ _ _ _ H1), (hf_sess _ _ _ _ _ H1), E1, HN1 in P2. exact P2.
Qed.

Lemma first_exchange p c0 c1 c2 a r m ra : start C P c0 -> sends p a r m c0 c1 -> gets (negb p) ra m c1 c2 -> noColl C P (cUsed c2) ->
  exists kb ny nym, In kb (pKIs (P (negb p))) /\ stateOf p c1 = Some (stateNew C r (initDHKey C kb) ny) /\ stateOf p c2 = Some (stateNew C r (initDHKey C kb) ny) /\
    stateOf (negb p) c2 = Some (mkState 0 0 0 (initDHKey C (rSessPriv r)) (initDHKey C kb) (Some (initDHKey C (dPriv ra))) None nym false).
Proof.
  intros ST S1 G1 NC2. destruct (first_exchange_nym _ _ _ _ _ _ _ _ ST S1 G1 NC2) as (kb & ny & H). exists kb, ny, (eNym a). exact H.
Qed.

(* both parties are in the same session *)
Definition agree (s t : state) : Prop := stSenderPub s = stRecipTemp t /\ stRecipTemp s = stSenderPub t.
Lemma agree_current p s t h : agree s t -> hdrFor C P p s h -> current h t = true.
Proof. intros [A1 A2] [_ _ H3 H4 _ _]. unfold current. rewrite H3, H4, A2, A1, !beq_refl. reflexivity. Qed.
Lemma isHash_same k : isHash (keHash k) (Some k) = true.
Proof. cbn [isHash]. apply beq_refl. Qed.
(* one party proposes a next session, the other one answers: both change to it *)
Theorem change_session p c0 c c1 c2 c3 c4 c5 c6 a1 r1 m1 ra1 a2 r2 m2 ra2 a3 r3 m3 ra3 s t k :
  reach C P c0 c -> stateOf p c = Some s -> stateOf (negb p) c = Some t -> agree s t -> stNextSender s = Some k -> stNextSender t = None -> stNextSeen t = None ->
  sends p a1 r1 m1 c c1 -> gets (negb p) ra1 m1 c1 c2 -> sends (negb p) a2 r2 m2 c2 c3 -> gets p ra2 m2 c3 c4 -> sends p a3 r3 m3 c4 c5 -> gets (negb p) ra3 m3 c5 c6 ->
  eStatus a1 <> StatusReset -> eStatus a2 <> StatusReset -> eStatus a3 <> StatusReset -> noColl C P (cUsed c6) ->
  exists s' t', stateOf p c6 = Some s' /\ stateOf (negb p) c6 = Some t' /\ agree s' t' /\ stSenderPub s' = k /\ stRecipTemp s' = initDHKey C (dPriv ra1).
Proof.
  intros R S T A KN TN TS S1 G1 S2 G2 S3 G3 NR1 NR2 NR3 NC6. apply N.eqb_neq in NR1, NR2, NR3.
  pose proof (used_gets _ _ _ _ _ G3 NC6) as NC5. pose proof (used_sends _ _ _ _ _ _ S3 NC5) as NC4. pose proof (used_gets _ _ _ _ _ G2 NC4) as NC3.
  pose proof (used_sends _ _ _ _ _ _ S2 NC3) as NC2. pose proof (used_gets _ _ _ _ _ G1 NC2) as NC1.
  assert (R1 : reach C P c0 c1) by (eapply RStep; [exact R|eapply sends_step; exact S1]). assert (R2 : reach C P c0 c2) by (eapply RStep; [exact R1|eapply gets_step; exact G1]).
  assert (R3 : reach C P c0 c3) by (eapply RStep; [exact R2|eapply sends_step; exact S2]). assert (R4 : reach C P c0 c4) by (eapply RStep; [exact R3|eapply gets_step; exact G2]).
  assert (R5 : reach C P c0 c5) by (eapply RStep; [exact R4|eapply sends_step; exact S3]).
  (* the proposal *)
  destruct (sends_state _ _ _ _ _ _ _ R S1 NC1) as (s1 & h1 & P1 & H1 & CA1 & E1). rewrite NR1, S in E1.
  assert (Q1 : stateOf (negb p) c1 = Some t) by (unfold stateOf; rewrite (sends_other _ _ _ _ _ _ S1); exact T).
  assert (N1 : stNextSender s1 = Some k) by (rewrite E1; cbn [stateNext stNextSender]; rewrite KN; unfold nextOf; destruct (eStatus a1 =? StatusError); reflexivity).
  assert (A1 : agree s1 t) by (rewrite E1; exact A).
  pose proof (hf_pub _ _ _ _ _ H1) as HP1. rewrite <- (negb_involutive p) in HP1.
  destruct (gets_state _ _ _ _ _ _ _ R1 G1 NC2 CA1 HP1) as (st1 & P2 & _). rewrite Q1 in P2. cbv zeta in P2.
  rewrite (current_known _ _ _ _ _ R1 NC1 Q1 (agree_current p _ _ _ A1 H1)) in P2. unfold after in P2. cbn [option_map] in P2. unfold afterKnown in P2.
  rewrite (agree_current p _ _ _ A1 H1), (hf_next _ _ _ _ _ H1), N1, TN, TS in P2.
  set (z := initDHKey C (dPriv ra1)) in *.
  assert (Q2 : stateOf p c2 = Some s1). { rewrite <- P1. unfold stateOf. pose proof (gets_other _ _ _ _ _ G1) as GO. rewrite negb_involutive in GO. rewrite GO. reflexivity. }
  (* the answer *)
  destruct (sends_state _ _ _ _ _ _ _ R2 S2 NC3) as (t1 & h2 & P3 & H2 & CA2 & E2). rewrite NR2, P2 in E2. rewrite negb_involutive in CA2.
  assert (Q3 : stateOf p c3 = Some s1). { rewrite <- Q2. unfold stateOf. pose proof (sends_other _ _ _ _ _ _ S2) as GO. rewrite negb_involutive in GO. rewrite GO. reflexivity. }
  assert (N2 : stNextSender t1 = Some z) by (rewrite E2; cbn [stateNext stNextSender]; unfold nextOf; destruct (eStatus a2 =? StatusError); reflexivity).
  assert (SE2 : stNextSeen t1 = Some k) by (rewrite E2; reflexivity).
  assert (A2 : agree t1 s1) by (rewrite E2; destruct A1; split; cbn [stateNext stSenderPub stRecipTemp]; congruence).
  destruct (gets_state _ _ _ _ _ _ _ R3 G2 NC4 CA2 (hf_pub _ _ _ _ _ H2)) as (st2 & P4 & ST2). rewrite Q3 in P4, ST2. cbv zeta in P4, ST2.
  rewrite (current_known _ _ _ _ _ R3 NC3 Q3 (agree_current _ _ _ _ A2 H2)) in P4, ST2.
  assert (st2 = k) as ->.
  { specialize (ST2 s1 eq_refl). rewrite N1 in ST2. cut (Some k = Some st2); [intros Q; now apply someInj in Q|]. apply ST2; try reflexivity; [discriminate|apply (agree_current _ _ _ _ A2 H2)| |].
    - rewrite (hf_next _ _ _ _ _ H2), N2. discriminate.
    - intros own Q. apply someInj in Q. subst own. rewrite (hf_seen _ _ _ _ _ H2), SE2. apply isHash_same. }
  unfold after in P4. cbn [option_map] in P4. unfold afterKnown in P4. rewrite (agree_current _ _ _ _ A2 H2), (hf_next _ _ _ _ _ H2), N2, N1, (hf_seen _ _ _ _ _ H2), SE2, isHash_same in P4.
  assert (Q4 : stateOf (negb p) c4 = Some t1) by (rewrite <- P3; unfold stateOf; rewrite (gets_other _ _ _ _ _ G2); reflexivity).
  (* the first message of the new session *)
  destruct (sends_state _ _ _ _ _ _ _ R4 S3 NC5) as (s2 & h3 & P5 & H3 & CA3 & E3). rewrite NR3, P4 in E3.
  assert (Q5 : stateOf (negb p) c5 = Some t1) by (rewrite <- Q4; unfold stateOf; rewrite (sends_other _ _ _ _ _ _ S3); reflexivity).
  assert (B1 : stSenderPub s2 = k) by (rewrite E3; reflexivity). assert (B2 : stRecipTemp s2 = z) by (rewrite E3; reflexivity).
  pose proof (hf_pub _ _ _ _ _ H3) as HP3. rewrite <- (negb_involutive p) in HP3.
  destruct (gets_state _ _ _ _ _ _ _ R5 G3 NC6 CA3 HP3) as (st3 & P6 & _). rewrite Q5 in P6. cbv zeta in P6.
  assert (HT : hRecipTempHash h3 = keHash z) by (rewrite (hf_temp _ _ _ _ _ H3), B2; reflexivity). assert (HS : hSessPub h3 = k) by (rewrite (hf_sess _ _ _ _ _ H3), B1; reflexivity).
  rewrite (next_known _ h3 _ _ _ z k R5 NC5 Q5 N2 SE2 HT) in P6 by (now rewrite HS). unfold after in P6. cbn [option_map] in P6. unfold afterKnown in P6.
  assert (CU : current h3 t1 = false).
  { unfold current. rewrite HT. destruct (beqP (keHash z) (keHash (stSenderPub t1))) as [Q|Q]; [|reflexivity]. exfalso. exact (next_new _ _ _ _ _ R5 NC5 Q5 N2 Q). }
  rewrite CU, N2, SE2, HT, HS, !isHash_same in P6. cbn [andb] in P6.
  assert (Q6 : stateOf p c6 = Some s2). { rewrite <- P5. unfold stateOf. pose proof (gets_other _ _ _ _ _ G3) as GO. rewrite negb_involutive in GO. rewrite GO. reflexivity. }
  exists s2. eexists. split; [exact Q6|]. split; [exact P6|]. split; [|split; [exact B1|exact B2]]. split; cbn [switched stSenderPub stRecipTemp]; [exact B1|exact B2].
Qed.
End Run.
