(* How the session states of the two parties of a conversation develop: the header that every message carries, and the
   state after it was received. *)
From Verif Require Import Base Base64Model Base64Proofs CodecModel CodecProofs JsonModel JsonProofs Maps CryptoModel StoreModel KeysModel KeysProofs MsgFormatModel MsgFormatProofs HeaderModel HeaderProofs ProtoModel ProtoProofs ProtoFirst ProtoCases SessState ConvModel ConvSteps ConvInv ConvProofs ConvSend ConvRecv ConvMain ConvTrack KeyDBModel KeyDBProofs.
Local Open Scope N_scope.

Lemma sealed_reads C ra i h hpriv nonce hp tail : sealedHeader C ra i h hpriv nonce hp -> wfb tail ->
  readsHeader C ra (b64enc (rawMsg C hpriv hp tail)) (dhpub C hpriv) i h tail.
Proof.
  intros [(pre & post & ike & ipriv & HD & HI & HP & HF) LH [LN WN] HW HV HB] WT.
  assert (WHP : wfb hp).
  { pose proof (headerPacket_inv _ _ _ _ _ _ HP) as [-> _]. rewrite !wfb_app. repeat split; [exact WN|apply wfb_be|].
    apply boxseal_wf, wfb_header, HB. }
  unfold readsHeader. rewrite b64dec_enc.
  2:{ unfold rawMsg. rewrite !wfb_app. split; [|split; [|exact WT]]; apply wfb_outer; cbn [newOuterHeader oInner]; [|exact WHP].
      unfold preBytes, preheader_write. rewrite !wfb_app. repeat split; try apply wfb_be; [apply wfbb_spec; reflexivity|apply dhpub_wf]. }
  eexists _, _, _. split; [reflexivity|]. split.
  - unfold rawMsg, preBytes. rewrite readFirst_write by (rewrite dhpub_len; reflexivity). reflexivity.
  - unfold decHeader. rewrite <- (app_nil_r (preheader_write _)). rewrite readPre_write by (rewrite dhpub_len; reflexivity).
    cbn [rbind]. cbn [newPreHeader pLenPub pPub]. rewrite dhpub_len. change (32 mod 2 ^ 16 =? 32) with true. cbn [negb].
    rewrite packet_write by (try reflexivity; lia). cbn [rbind newOuterHeader oInner]. rewrite HD.
    erewrite readHeader_seal; [|exact HP|lia|exact LN|reflexivity|exact HI|exact HF|exact HW|exact HV]. reflexivity.
Qed.
Lemma reads_fun C ra msg hp i h s hp' i' h' s' : readsHeader C ra msg hp i h s -> readsHeader C ra msg hp' i' h' s' -> hp = hp' /\ i = i' /\ h = h' /\ s = s'.
Proof.
  intros (raw & pre & s0 & A1 & A2 & A3) (raw' & pre' & s0' & B1 & B2 & B3). rewrite A1 in B1. apply someInj in B1. subst raw'. rewrite A2 in B2. apply Ok_inj in B2.
  apply pair_inj in B2 as [B2 <-]. apply pair_inj in B2 as [_ <-]. rewrite A3 in B3. apply Ok_inj in B3. apply pair_inj in B3 as [B3 <-]. apply pair_inj in B3 as [B3 <-]. apply pair_inj in B3 as [<- <-]. auto.
Qed.

Section Dyn.
Variable C : Crypto.
Variable P : bool -> party.
Notation sec := (sec P).
Notation SK := (SK C P).
(* party p finds the header h in message m *)
Definition carries (p : bool) (m : sent) (h : header) : Prop :=
  forall ra, recvOk C P p ra -> exists hp i s, readsHeader C ra (sWire m) hp i h s /\ isIdent C (P p) i.
(* the header belongs to the state ss of party p *)
Record hdrFor (p : bool) (ss : state) (h : header) : Prop := {
  hf_name : hSender h = pName (P p);
  hf_pub : hSenderPub h = initDHKey C (sec p);
  hf_temp : hRecipTempHash h = keHash (stRecipTemp ss);
  hf_sess : hSessPub h = stSenderPub ss;
  hf_next : hNext h = stNextSender ss;
  hf_seen : hSeen h = stNextSeen ss }.

Lemma opens_ident p i : isIdent C (P p) i -> opensId C i (initDHKey C (sec p)) (sec p).
Proof. intros [[HI1 [ks HI2]] HI3]. split; [eapply pubKey_cons; exact HI2|]. split; [apply initDHKey_pub32|]. unfold priv32. rewrite HI3. cbn [initDHKey keFunc]. rewrite beq_refl. reflexivity. Qed.
Lemma sealed_of p ra r a ss h hp w nym w' w1 w2 sk mk body fk tk : recvOk C P p ra -> encOk C a r w nym w' ss w1 w2 hp sk mk body fk tk -> encWf C a r ss -> hdrOf C a r ss = Ok h ->
  headerPacket C h (dhpub C (sec p)) (rHeaderPriv r) (rNonce r) = Ok hp -> exists i, isIdent C (P p) i /\ sealedHeader C ra i h (rHeaderPriv r) (rNonce r) hp /\ wfb body.
Proof.
  intros RO E W HH HP. destruct (rk_ids _ _ _ _ RO) as (pre & i & post & HD & HI & HF). exists i. split; [exact HI|].
  pose proof (hdrOf_inv _ _ _ _ _ HH W) as (_ & _ & _ & _ & _ & _ & _ & _ & _ & HW & HV & HB).
  destruct (ew_iv _ _ _ _ W) as [LI WI].
  pose proof (encOk_len _ _ _ _ _ _ _ _ _ _ _ _ _ _ _ E LI) as LH.
  pose proof (eo_body _ _ _ _ _ _ _ _ _ _ _ _ _ _ _ E) as EB.
  pose proof (sealBody_wf _ _ _ _ _ _ _ WI (encContent_wf _ _ _ _ W) (ew_pad _ _ _ _ W) EB) as WB.
  split; [|exact WB]. constructor; try assumption.
  - exists pre, post, (initDHKey C (sec p)), (sec p). split; [exact HD|]. split; [now apply opens_ident|]. split; [exact HP|]. eapply skipsAll; [exact HF|reflexivity].
  - lia.
  - apply (ew_nonce _ _ _ _ W).
Qed.

(* sending: the header is the one for the state afterwards *)
Lemma send_carries_nym c g p a r nym w : inv C P c g -> noColl C P (rHeaderPriv r :: rSessPriv r :: cUsed c) -> sendOk C P p a r ->
  numOf C P p a (cStore c p) + 1 < 2 ^ 63 -> fresh C [rHeaderPriv r; rSessPriv r] (cUsed c) -> run (encrypt C a r) (cStore c p) = (Ok nym, w) ->
  forall sess num, exists ss h, mget (stateKey C P p) (states (wStore w)) = Some ss /\ hdrFor p ss h /\ carries (negb p) (mkSent a sess num (wOut w)) h /\ hNym h = eNym a.
Proof.
  intros I HC SO NB FR EN sess num. destruct (send_inv C P c g p a r nym w I HC SO NB FR EN) as [g' I']. pose proof (i_st _ _ _ _ I' p) as SI.
  cbn [cStore] in SI. rewrite upd_same in SI. unfold stInv in SI. unfold run in EN. set (w0 := mkWorld (cStore c p) [] []) in *.
  destruct (encrypt_ok _ _ _ _ _ _ EN) as (ss & w1 & w2 & hp & sk & mk & body & fk & tk & EO).
  pose proof EO as [O1 O2 O3 O4 O5 O6 O7 O8 O9].
  destruct (sk_from _ _ _ _ _ SO) as [[F1 [ks F2]] F3]. destruct (sk_to _ _ _ _ _ SO) as [T1 [ks' T2]]. fold (sec p) in *. fold (sec (negb p)) in *.
  rewrite (pubKey_cons _ _ _ F2) in O7. cbn [rbind] in O7. rewrite initDHKey_pub32 in O7. injection O7 as <-.
  rewrite (pubKey_cons _ _ _ T2) in O8. cbn [rbind] in O8. rewrite initDHKey_pub32 in O8. injection O8 as <-.
  change (calcStateKey C (dhpub C (sec p)) (dhpub C (sec (negb p)))) with (stateKey C P p) in O9.
  assert (MS : mget (stateKey C P p) (states (wStore w)) = Some (bumped ss)).
  { rewrite O9, steps_ap. unfold ap. cbn [fold_left]. cbn [apply_op states]. apply mget_mset_same. }
  rewrite MS in SI. destruct SI as (x & y & on & os & G & _). exists (bumped ss).
  assert (MC : stMsgCount ss < 2 ^ 64).
  { rewrite O9 in MS. clear -O1 SO NB F2 T2. pose proof (send_track C P p a r (wStore w0) nym). unfold encState in O1.
    assert (G : forall o : option state, (forall s, o = Some s -> stMsgCount s < 2 ^ 63) ->
      (dom oss <- (fun w => (Ok o, w)); match oss with None =>
      (dom (recipientTemp, nym) <- getPublicKeyEntry (uIdentity (eTo a));
       dom _ <- addSessionKey (initDHKey C (rSessPriv r)) (rSessPriv r) (eCleanup a);
       dom fromPriv <- lift (priv32 (initDHKey C (sec p)) (idEncPriv (eFrom a)));
       dom _ <- rootKeyAgreementSender C (dhpub C (rHeaderPriv r)) (uIdentity (idUid (eFrom a))) (uIdentity (eTo a)) (initDHKey C (rSessPriv r)) (rSessPriv r)
               (initDHKey C (sec p)) fromPriv recipientTemp (initDHKey C (sec (negb p))) None (numKeys (eNumKeys a));
       dom _ <- emit (OSetState (stateKey C P p) (mkState 0 0 0 recipientTemp (initDHKey C (rSessPriv r)) None None nym true));
       mret (nym, mkState 0 0 0 recipientTemp (initDHKey C (rSessPriv r)) None None nym true))
     | Some ss0 => if eStatus a =? StatusError then mret ([], ss0)
       else match stNextSender ss0 with
            | None => if rCoin r then dom (_, ss') <- setNextSenderSessionPub C ss0 (stateKey C P p) (rSessPriv r) (eCleanup a); mret (stNym ss0, ss') else mret (stNym ss0, ss0)
            | Some _ => mret (stNym ss0, ss0) end end) w0 = (Ok (nym, ss), w1) -> stMsgCount ss < 2 ^ 64).
    { intros o HO E. apply mbind_ok in E as (o' & v & Q & E). apply okpair in Q as [<- <-]. destruct o as [s|].
      - specialize (HO _ eq_refl). destruct (eStatus a =? StatusError); [apply okpair in E as [E _]; apply pair_inj in E as [_ <-]; lia|].
        destruct (stNextSender s); [apply okpair in E as [E _]; apply pair_inj in E as [_ <-]; lia|].
        destruct (rCoin r); [|apply okpair in E as [E _]; apply pair_inj in E as [_ <-]; lia].
        apply mbind_ok in E as ([k s'] & v & Q & E). apply okpair in E as [E _]. apply pair_inj in E as [_ <-].
        unfold setNextSenderSessionPub in Q. apply mbind_ok in Q as (u & v1 & _ & Q). apply mbind_ok in Q as (u' & v2 & _ & Q). apply okpair in Q as [Q _]. apply pair_inj in Q as [_ <-]. cbn [stMsgCount]. lia.
      - apply mbind_ok in E as ([rt ny] & v & _ & E). apply mbind_ok in E as (u1 & v1 & _ & E). apply mbind_ok in E as (u2 & v2 & _ & E). apply mbind_ok in E as (u3 & v3 & _ & E).
        apply mbind_ok in E as (u4 & v4 & _ & E). apply okpair in E as [E _]. apply pair_inj in E as [_ <-]. cbn [stMsgCount]. lia. }
    rewrite (pubKey_cons _ _ _ F2), lift_bind, initDHKey_pub32, lift_bind, (pubKey_cons _ _ _ T2), lift_bind, initDHKey_pub32, lift_bind in O1. cbv zeta in O1.
    unfold numOf in NB. destruct (eStatus a =? StatusReset).
    - apply (G None); [discriminate|exact O1].
    - apply (G (mget (stateKey C P p) (states (cStore c p)))); [|exact O1]. intros s Es. rewrite Es in NB. lia. }
  assert (W : encWf C a r ss).
  { pose proof (encWf_of C P p a r g' (bumped ss) x y on os SO G) as W. destruct W. constructor; assumption. }
  apply encHeader_inv in O2 as (h & rpub & H1 & H2 & H3). exists h. split; [exact MS|]. split; [|split].
  - pose proof (hdrOf_inv _ _ _ _ _ H1 W) as (_ & _ & U3 & U4 & U5 & U6 & U7 & U8 & _). constructor; try assumption.
    + now rewrite U3.
    + rewrite (pubKey_cons _ _ _ F2) in U8. apply Ok_inj in U8. exact U8.
  - intros ra RO. cbn [sWire]. assert (RP : rpub = dhpub C (sec (negb p))).
    { unfold publicKey in H2. rewrite (pubKey_cons _ _ _ T2) in H2. cbn [rbind] in H2. cbn [initDHKey kePub] in H2. rewrite b64dec_enc in H2 by apply dhpub_wf. rewrite dhpub_len in H2. cbn [N.eqb Pos.eqb] in H2. apply Ok_inj in H2. now symmetry. }
    subst rpub. destruct (sealed_of (negb p) ra r a ss h hp _ _ _ _ _ _ _ _ _ _ RO EO W H1 H3) as (i & HI & SH & WB).
    exists (dhpub C (rHeaderPriv r)), i, body. split; [|exact HI]. rewrite (encrypt_out _ _ _ _ _ _ _ _ _ _ _ _ _ _ _ EO). cbn [w0 wOut app]. eapply sealed_reads; eassumption.
  - apply (hdrOf_inv _ _ _ _ _ H1 W).
Qed.
Lemma send_carries c g p a r nym w : inv C P c g -> noColl C P (rHeaderPriv r :: rSessPriv r :: cUsed c) -> sendOk C P p a r ->
  numOf C P p a (cStore c p) + 1 < 2 ^ 63 -> fresh C [rHeaderPriv r; rSessPriv r] (cUsed c) -> run (encrypt C a r) (cStore c p) = (Ok nym, w) ->
  forall sess num, exists ss h, mget (stateKey C P p) (states (wStore w)) = Some ss /\ hdrFor p ss h /\ carries (negb p) (mkSent a sess num (wOut w)) h.
Proof.
  intros I HC SO NB FR EN sess num. destruct (send_carries_nym c g p a r nym w I HC SO NB FR EN sess num) as (ss & h & A & B & D & _). exists ss, h. auto.
Qed.
(* receiving *)
Lemma recv_decState c g p ra l1 m l2 : inv C P c g -> noColl C P (dPriv ra :: cUsed c) -> cNet c (negb p) = l1 ++ m :: l2 -> recvOk C P p ra ->
  fresh C [dPriv ra] (cUsed c) -> exists hp i h s y w1, readsHeader C ra (sWire m) hp i h s /\ isIdent C (P p) i /\ decState C ra hp i h (mkWorld (cStore c p) [] []) = (Ok y, w1).
Proof.
  intros I HC NET RO FR. set (used := dPriv ra :: cUsed c) in *. assert (KU : NoDup (map (dhpub C) used)) by exact FR.
  destruct I as [I1 I2 I3 I4 I5 I6].
  assert (T : tagsOk P used g) by (eapply tags_grow; [|exact I2]; intros z Hz; right; exact Hz).
  assert (NZ : gT g (dPriv ra) = None) by (eapply fresh_tag; [exact I2|exact FR|now left]).
  destruct (I5 (negb p)) as (ids & J1 & J2 & J3). rewrite NET in J1. apply Forall2_split in J1 as (k1 & id & k2 & EI & F1 & MO & F2).
  destruct MO as (x & y & on & os & root & cr & r & w0 & nym & w' & ss & w1 & w2 & hp & sk & mk & body & fk & tk & h & M).
  destruct (rk_priv _ _ _ _ RO) as [LZ WZ].
  pose proof (mi_pkt _ _ _ _ _ _ _ _ _ _ _ _ _ _ _ _ _ _ _ _ _ _ _ _ _ _ M) as PK. rewrite negb_involutive in PK.
  destruct (sealed_of p ra r (sArgs m) ss h hp w0 nym w' w1 w2 sk mk body fk tk RO (mi_enc _ _ _ _ _ _ _ _ _ _ _ _ _ _ _ _ _ _ _ _ _ _ _ _ _ _ M) (mi_wf _ _ _ _ _ _ _ _ _ _ _ _ _ _ _ _ _ _ _ _ _ _ _ _ _ _ M)
    (mi_hdr _ _ _ _ _ _ _ _ _ _ _ _ _ _ _ _ _ _ _ _ _ _ _ _ _ _ M) PK) as (i & HI & SH & WB).
  pose proof (incoming_of _ _ _ _ _ _ _ _ _ _ _ _ _ _ _ _ _ _ _ _ _ _ _ _ _ _ _ M HI) as IN.
  destruct (recv_state C P used KU HC p ra i (mkWorld (cStore c p) [] []) g (rHeaderPriv r) h x y on os root cr (I3 p) (I4 p) T IN (or_introl eq_refl) NZ LZ WZ)
    as (ss1 & la & g1 & x1 & y1 & on1 & os1 & DS & _).
  eexists _, i, h, body, _, _. split; [|split; [exact HI|exact DS]].
  rewrite (mi_wire _ _ _ _ _ _ _ _ _ _ _ _ _ _ _ _ _ _ _ _ _ _ _ _ _ _ M). eapply sealed_reads; eassumption.
Qed.
(* the session of a message with header h, as its receiver p names it *)
Definition sessIn (p : bool) (h : header) : bytes := calcKey C (hashText C (dhpub C (sec p))) (hashText C (dhpub C (sec (negb p)))) (hRecipTempHash h) (keHash (hSessPub h)).
Lemma recv_track c g p ra l1 m l2 h res w : inv C P c g -> noColl C P (dPriv ra :: cUsed c) -> cNet c (negb p) = l1 ++ m :: l2 -> recvOk C P p ra ->
  fresh C [dPriv ra] (cUsed c) -> carries p m h -> hSenderPub h = initDHKey C (sec (negb p)) -> run (receive C ra (sWire m)) (cStore c p) = (res, w) ->
  exists stored, let oss := mget (stateKey C P p) (states (cStore c p)) in let kn := mhas (sessIn p h) (sessions (cStore c p)) in
    mget (stateKey C P p) (states (wStore w)) = after C (pName (P p)) h (dPriv ra) stored kn (option_map fst (mget (hRecipTempHash h) (privKEs (cStore c p)))) oss /\
    (kn = true -> oss <> None) /\
    (forall ss, oss = Some ss -> stNextSender ss <> None -> kn = true -> current h ss = true -> hNext h <> None ->
       (forall own, stNextSender ss = Some own -> isHash (keHash own) (hSeen h) = true) -> stNextSender ss = Some stored).
Proof.
  intros I HC NET RO FR CA SP RU. destruct (recv_decState c g p ra l1 m l2 I HC NET RO FR) as (hp & i & h' & s & [[ke sk] y] & w1 & RH & HI & DS).
  destruct (CA ra RO) as (hp' & i' & s' & RH' & _). destruct (reads_fun _ _ _ _ _ _ _ _ _ _ _ RH' RH) as (-> & -> & -> & ->). clear RH'.
  unfold run in RU. rewrite (receive_reads _ _ _ _ _ _ _ _ RH) in RU. rewrite (bind_ok _ _ _ _ _ DS) in RU. apply quiet in RU; [|apply rest_quiet].
  apply decState_track in DS as (key & stored & (ke' & rp & sp & K1 & K2 & K3 & -> & ->) & K4 & DS). cbn [wStore] in DS. cbv zeta in DS.
  destruct HI as [[HI1 [ks HI2]] HI3]. rewrite (pubKey_cons _ _ _ HI2) in K1. apply Ok_inj in K1. subst ke'. rewrite initDHKey_pub32 in K2. apply Ok_inj in K2. subst rp.
  rewrite SP, initDHKey_pub32 in K3. apply Ok_inj in K3. subst sp. fold (sec p) in DS. rewrite SP, !keHash_init in DS. fold (sessIn p h') in DS.
  change (calcStateKey C (dhpub C (sec p)) (dhpub C (sec (negb p)))) with (stateKey C P p) in DS. rewrite HI1 in DS. destruct DS as (D1 & D2 & D3 & D4).
  exists stored. cbv zeta. split; [rewrite RU, D2; exact D1|]. split; [exact D3|].
  intros ss OS NS KN CU NX SE. destruct (stNextSender ss) as [own|] eqn:EO; [|now destruct NS].
  destruct (D4 ss own OS EO KN CU NX (SE _ eq_refl)) as (op & v & GK).
  pose proof (i_st _ _ _ _ I p) as SI. unfold stInv in SI. rewrite OS in SI. destruct SI as (x & y0 & on & os & G & S). rewrite (k_next _ _ _ _ _ _ _ _ _ G) in EO.
  destruct on as [n|]; [|discriminate]. cbn [option_map] in EO. apply someInj in EO. subst own. destruct (s_next _ _ _ _ _ _ _ _ S n eq_refl) as (e & E1 & E2 & E3 & E4 & E5).
  rewrite keHash_init in GK. unfold getSessionKey in GK. apply mbind_ok in GK as (o & v1 & Q & GK). apply ask_ok in Q as [-> ->]. cbn [wStore] in GK. rewrite E1, E2 in GK.
  apply mbind_ok in GK as (k' & v1 & Q & GK). apply lift_ok in Q as [Q ->]. rewrite newKE_JSON in Q. apply Ok_inj in Q. subst k'.
  destruct (beq (skPriv e) []); [apply okpair in GK as [GK _]; apply pair_inj in GK as [<- _]; reflexivity|].
  destruct (b64dec (skPriv e)); [|discriminate]. repeat (match type of GK with (if ?b then _ else _) _ = _ => destruct b end; [|try discriminate]); try discriminate.
  all: apply okpair in GK as [GK _]; apply pair_inj in GK as [<- _]; reflexivity.
Qed.
End Dyn.
