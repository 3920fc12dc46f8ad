(* Both parties start the conversation at the same time. *)
From Verif Require Import Base Base64Model CodecModel JsonModel Maps CryptoModel StoreModel KeysModel KeysProofs MsgFormatModel HeaderModel ProtoModel ProtoProofs ProtoFirst SessState SessCount ConvModel ConvSteps ConvInv ConvProofs ConvSend ConvRecv ConvMain ConvTrack ConvDyn ConvRun.
Local Open Scope N_scope.

Definition onlySess (sk : bytes) (o : op) : Prop := match o with OStoreSession k _ _ _ _ => k = sk | _ => True end.
Lemma onlySess_fold sk l : Forall (onlySess sk) l -> forall st k, mhas k (sessions (fold_left (fun s o => apply_op o s) l st)) = true -> k = sk \/ mhas k (sessions st) = true.
Proof.
  intros F. induction F as [|o l H F IH]; intros st k N; cbn [fold_left] in N; [now right|]. apply IH in N as [N|N]; [now left|].
  destruct o as [k' s|sk' rh ck a b|h j p c|h|sk' b i|b]; cbn [apply_op] in *; try (now right).
  - cbn in H. subst sk'. cbn [sessions] in N. destruct (beqP k sk) as [->|NE]; [now left|]. right. unfold mhas in *. now rewrite mget_mset_other in N.
  - destruct (mget h (skeys st)); now right.
  - destruct (mget sk' (sessions st)) as [s|] eqn:E; [|now right]. right. cbn [sessions] in N. destruct (beqP k sk') as [->|NE].
    + unfold mhas. now rewrite E.
    + unfold mhas in *. now rewrite mget_mset_other in N.
Qed.
Lemma traced_liftR {A B} P (x : res A) (f : A -> M B) : (forall a, x = Ok a -> traced P (f a)) -> traced P (mbind (lift x) f).
Proof. intros H w. exact (at_lift P x f w (fun a E => H a E w)). Qed.
Lemma gen_only C a b sa sb ck x y n : traced (onlySess (sessKeyOf C (idHash C sa) (idHash C sb) (dhpub C x) (dhpub C y)))
  (generateMessageKeys C a b (keHash (initDHKey C sa)) (keHash (initDHKey C sb)) ck false (dhpub C x) (dhpub C y) n).
Proof. unfold generateMessageKeys. destruct (keyLoop C (N.to_nat n) ck (dhpub C y) (dhpub C x) (identityFix C a b)) as [[s r] c]. apply traced_storeSession. rewrite !keHash_init. reflexivity. Qed.
Lemma rkaS_only C hp a b x sa fp y sb prev n : traced (onlySess (sessKeyOf C (idHash C sa) (idHash C sb) (dhpub C x) (dhpub C y)))
  (rootKeyAgreementSender C hp a b (initDHKey C x) x (initDHKey C sa) fp (initDHKey C y) (initDHKey C sb) prev n).
Proof.
  unfold rootKeyAgreementSender. rewrite !initDHKey_pub32. apply traced_liftR. intros ? Q. apply Ok_inj in Q. subst. apply traced_liftR. intros ? Q. apply Ok_inj in Q. subst.
  apply traced_liftR. intros ? Q. apply Ok_inj in Q. subst. apply traced_liftR. intros ? Q. apply Ok_inj in Q. subst. do 4 (apply traced_liftR; intros ? _). apply gen_only.
Qed.
Lemma first_sessions C a r w nym w' sa sb kb ny ks ks' : uPubKeys (idUid (eFrom a)) = initDHKey C sa :: ks -> uPubKeys (eTo a) = initDHKey C sb :: ks' ->
  eStatus a = StatusReset \/ mget (calcStateKey C (dhpub C sa) (dhpub C sb)) (states (wStore w)) = None ->
  mget (uIdentity (eTo a)) (pubKEs (wStore w)) = Some (initDHKey C kb, ny) -> encrypt C a r w = (Ok nym, w') ->
  forall k, mhas k (sessions (wStore w')) = true -> k = sessKeyOf C (idHash C sa) (idHash C sb) (dhpub C (rSessPriv r)) (dhpub C kb) \/ mhas k (sessions (wStore w)) = true.
Proof.
  intros F T S K E k Hk. apply encrypt_ok in E as (ss & w1 & w2 & hp & sk & mk & body & fk & tk & [O1 _ O3 _ _ _ _ _ O9]).
  set (sk0 := sessKeyOf C (idHash C sa) (idHash C sb) (dhpub C (rSessPriv r)) (dhpub C kb)).
  rewrite O9, steps_store in Hk. apply (onlySess_fold sk0) in Hk; [|repeat constructor]. destruct Hk as [Hk|Hk]; [now left|].
  unfold encState in O1. rewrite (pubKey_cons _ _ _ F), lift_bind, initDHKey_pub32, lift_bind, (pubKey_cons _ _ _ T), lift_bind, initDHKey_pub32, lift_bind in O1. cbv zeta in O1.
  apply mbind_ok in O1 as (oss & v & Q & O1). assert (oss = None /\ v = w) as [-> ->].
  { destruct (eStatus a =? StatusReset) eqn:ES; [apply okpair in Q as [<- <-]; auto|]. destruct S as [S|S]; [rewrite S in ES; discriminate|].
    unfold getSessionState in Q. apply ask_ok in Q as [-> ->]. auto. }
  clear Q. apply mbind_ok in O1 as ([rt ny'] & v & Q & O1). unfold getPublicKeyEntry in Q. rewrite K in Q. apply okpair in Q as [Q <-]. apply pair_inj in Q as [<- <-].
  assert (TS : traced (onlySess sk0) (dom _ <- addSessionKey (initDHKey C (rSessPriv r)) (rSessPriv r) (eCleanup a);
       dom fromPriv <- lift (priv32 (initDHKey C sa) (idEncPriv (eFrom a)));
       dom _ <- rootKeyAgreementSender C (dhpub C (rHeaderPriv r)) (uIdentity (idUid (eFrom a))) (uIdentity (eTo a)) (initDHKey C (rSessPriv r)) (rSessPriv r)
               (initDHKey C sa) fromPriv (initDHKey C kb) (initDHKey C sb) None (numKeys (eNumKeys a));
       dom _ <- emit (OSetState (calcStateKey C (dhpub C sa) (dhpub C sb)) (mkState 0 0 0 (initDHKey C kb) (initDHKey C (rSessPriv r)) None None ny true));
       mret (ny, mkState 0 0 0 (initDHKey C kb) (initDHKey C (rSessPriv r)) None None ny true))).
  { apply traced_bind; [apply (traced_addSessionKey C); intros; exact I|]. intros u. apply traced_liftR. intros fp _. apply traced_bind; [apply rkaS_only|]. intros u1.
    apply traced_bind; [apply traced_emit; exact I|]. intros u2. apply traced_pure. reflexivity. }
  destruct (TS w) as (l1 & L1 & FL1). rewrite O1 in L1. cbn [snd] in L1.
  assert (SS : ss = mkState 0 0 0 (initDHKey C kb) (initDHKey C (rSessPriv r)) None None ny true).
  { repeat (apply mbind_ok in O1 as (? & ? & _ & O1)). apply okpair in O1 as [O1 _]. apply pair_inj in O1 as [_ <-]. reflexivity. }
  (* encKey *)
  assert (TK : traced (onlySess sk0) (encKey C a ss)).
  { rewrite SS. unfold encKey. rewrite (pubKey_cons _ _ _ F), (pubKey_cons _ _ _ T). cbn [stSenderPub stRecipTemp stMsgCount]. rewrite !initDHKey_pub32.
    apply traced_liftR. intros k1 Q1. apply Ok_inj in Q1. subst k1. apply traced_liftR. intros k1 Q1. apply Ok_inj in Q1. subst k1. cbv zeta.
    apply traced_bind; [apply traced_pure; reflexivity|]. intros n. apply traced_bind.
    - destruct (n <=? 0); [|apply traced_pure; reflexivity]. apply traced_bind; [apply traced_pure; intros v; unfold getChainKey; reflexivity|]. intros ck.
      apply traced_liftR. intros k1 Q1. apply Ok_inj in Q1. subst k1. apply traced_liftR. intros k1 Q1. apply Ok_inj in Q1. subst k1. apply gen_only.
    - intros u. apply traced_bind; [apply traced_pure; reflexivity|]. intros m. apply traced_pure. reflexivity. }
  destruct (TK w1) as (l2 & L2 & FL2). rewrite O3 in L2. cbn [snd] in L2. rewrite L2, steps_store in Hk. apply (onlySess_fold sk0 _ FL2) in Hk as [Hk|Hk]; [now left|].
  rewrite L1, steps_store in Hk. apply (onlySess_fold sk0 _ FL1) in Hk. exact Hk.
Qed.

Section Simul.
Variable C : Crypto.
Variable P : bool -> party.
Notation sec := (sec P).
Lemma sends_known p a r m c c' kb ny k : sends C P p a r m c c' -> sessions (cStore c p) = [] -> stateOf C P p c = None ->
  mget (pName (P (negb p))) (pubKEs (cStore c p)) = Some (initDHKey C kb, ny) -> mhas k (sessions (cStore c' p)) = true -> k = SK C P p (rSessPriv r) kb.
Proof.
  intros (SO & _ & _ & nym & w & EN & _ & ->) SE ST PK Hk. cbn [cStore] in Hk. rewrite upd_same in Hk.
  destruct (sk_from _ _ _ _ _ SO) as [[F1 [ks F2]] F3]. destruct (sk_to _ _ _ _ _ SO) as [T1 [ks' T2]].
  destruct (first_sessions C a r (mkWorld (cStore c p) [] []) nym w _ _ kb ny ks ks' F2 T2) with (k := k) as [Q|Q]; try assumption.
  - right. exact ST.
  - rewrite T1. exact PK.
  - cbn [wStore] in Q. rewrite SE in Q. discriminate.
Qed.
Lemma sends_fresh p a r m c c' : sends C P p a r m c c' -> incl (cUsed c) (cUsed c') /\ In (rSessPriv r) (cUsed c') /\ ~ In (rSessPriv r) (cUsed c).
Proof.
  intros (_ & _ & FR & nym & w & _ & _ & ->). cbn [cUsed]. split; [intros k Hk; right; now right|]. split; [right; now left|]. intros Q.
  apply (in_map (dhpub C)) in Q. unfold fresh in FR. cbn [map app] in FR. apply NoDup_cons_iff in FR as [_ FR]. apply NoDup_cons_iff in FR as [N _]. contradiction.
Qed.
Lemma KI_known q k : In k (pKIs (P q)) -> In k (knownKeys P).
Proof. intros Hk. unfold knownKeys. right. right. apply in_or_app. destruct q; auto. Qed.
(* the key of a first message is neither known beforehand nor equal to a published key *)
Theorem simultaneous p c0 c1 c2 c3 c4 a r m a' r' m' ra ra' : start C P c0 ->
  sends C P p a r m c0 c1 -> sends C P (negb p) a' r' m' c1 c2 -> gets C P (negb p) ra m c2 c3 -> gets C P p ra' m' c3 c4 -> noColl C P (cUsed c4) ->
  bltb (pName (P p)) (pName (P (negb p))) = true ->
  exists s t, stateOf C P p c4 = Some s /\ stateOf C P (negb p) c4 = Some t /\ agree s t /\ stSenderPub s = initDHKey C (rSessPriv r) /\
    stKeyInit s = true /\ stKeyInit t = false /\ stNextSender s = None /\ stNextSender t = Some (initDHKey C (dPriv ra)) /\ stNextSeen s = None /\ stNextSeen t = None.
Proof.
  intros ST S1 S2 G1 G2 NC4 LT. pose proof (used_gets _ _ _ _ _ _ _ G2 NC4) as NC3. pose proof (used_gets _ _ _ _ _ _ _ G1 NC3) as NC2. pose proof (used_sends _ _ _ _ _ _ _ _ S2 NC2) as NC1.
  assert (R0 : reach C P c0 c0) by now constructor. assert (R1 : reach C P c0 c1) by (eapply RStep; [exact R0|eapply sends_step; exact S1]).
  assert (R2 : reach C P c0 c2) by (eapply RStep; [exact R1|eapply sends_step; exact S2]). assert (R3 : reach C P c0 c3) by (eapply RStep; [exact R2|eapply gets_step; exact G1]).
  pose proof (sends_other _ _ _ _ _ _ _ _ S1) as O1. pose proof (sends_other _ _ _ _ _ _ _ _ S2) as O2. rewrite negb_involutive in O2.
  pose proof (gets_other _ _ _ _ _ _ _ G1) as O3. rewrite negb_involutive in O3. pose proof (gets_other _ _ _ _ _ _ _ G2) as O4.
  assert (RST : forall b : bool, (if b then None else None) = @None state) by (intros []; reflexivity).
  (* the two first messages *)
  destruct (sends_state _ _ _ _ _ _ _ _ _ R0 S1 NC1) as (s & h & P1 & H1 & CA1 & E1). unfold stateOf at 1 in E1. rewrite (st_state _ _ _ ST p), RST in E1.
  destruct E1 as (kb & ny & K1 & K2 & E1).
  assert (Q0 : stateOf C P (negb p) c1 = None) by (unfold stateOf; rewrite O1; apply (st_state _ _ _ ST)).
  destruct (sends_state _ _ _ _ _ _ _ _ _ R1 S2 NC2) as (t & h' & P2 & H2 & CA2 & E2). rewrite Q0, RST, negb_involutive in E2.
  destruct E2 as (kp & ny' & K3 & K4 & E2). rewrite negb_involutive in CA2.
  destruct (sends_fresh _ _ _ _ _ _ S1) as (I1 & X1 & Y1). destruct (sends_fresh _ _ _ _ _ _ S2) as (I2 & X2 & Y2). rewrite (st_used _ _ _ ST) in I1, Y1.
  apply KI_known in K1 as K1'. apply KI_known in K3 as K3'. destruct (reach_inv C P _ _ R2 NC2) as [g I]. pose proof (i_used _ _ _ _ I) as KU.
  (* q does not know the session of p's message, p does not know that of q's *)
  assert (U1 : mhas (sessIn C P (negb p) h) (sessions (cStore c2 (negb p))) = false).
  { apply Bool.not_true_iff_false. intros KN. eapply sends_known in KN; [|exact S2|rewrite O1; apply (st_sessions _ _ _ ST)|exact Q0|rewrite negb_involutive; exact K4].
    unfold sessIn in KN. rewrite (hf_temp _ _ _ _ _ H1), (hf_sess _ _ _ _ _ H1), E1 in KN. cbn [stateNew stRecipTemp stSenderPub] in KN. rewrite !keHash_init in KN.
    apply (SK_inj C P (cUsed c2) KU NC2 (negb p) kb (rSessPriv r) (rSessPriv r') kp) in KN; [|apply I2, I1, K1'|apply I2, X1|exact X2|apply I2, I1, K3'].
    destruct KN as [_ KN]. apply Y1. rewrite KN. exact K3'. }
  assert (U2 : mhas (sessIn C P p h') (sessions (cStore c3 p)) = false).
  { rewrite O3, O2. apply Bool.not_true_iff_false. intros KN. eapply sends_known in KN; [|exact S1|apply (st_sessions _ _ _ ST)|apply (st_state _ _ _ ST)|exact K2].
    unfold sessIn in KN. rewrite (hf_temp _ _ _ _ _ H2), (hf_sess _ _ _ _ _ H2), E2 in KN. cbn [stateNew stRecipTemp stSenderPub] in KN. rewrite !keHash_init in KN.
    apply (SK_inj C P (cUsed c2) KU NC2 p kp (rSessPriv r') (rSessPriv r) kb) in KN; [|apply I2, I1, K3'|exact X2|apply I2, X1|apply I2, I1, K1'].
    destruct KN as [KN _]. apply Y1. rewrite <- KN. exact K3'. }
  (* q receives p's message and changes to its session *)
  pose proof (hf_pub _ _ _ _ _ H1) as HP1. rewrite <- (negb_involutive p) in HP1.
  destruct (gets_state _ _ _ _ _ _ _ _ _ R2 G1 NC3 CA1 HP1) as (st1 & P3 & _). cbv zeta in P3. rewrite U1, P2 in P3. cbn [after] in P3.
  rewrite (hf_temp _ _ _ _ _ H1), E1 in P3. cbn [stateNew stRecipTemp] in P3. rewrite keHash_init, (ki_stored _ _ _ _ _ _ R2 NC2 K1) in P3. cbn [option_map fst afterUnknown] in P3.
  rewrite (hf_name _ _ _ _ _ H1), LT, E2 in P3. cbn [stateNew stKeyInit andb] in P3. rewrite (hf_next _ _ _ _ _ H1), (hf_sess _ _ _ _ _ H1), E1 in P3. cbn [stateNew stNextSender stSenderPub] in P3.
  (* p receives q's message and stays *)
  destruct (gets_state _ _ _ _ _ _ _ _ _ R3 G2 NC4 CA2 (hf_pub _ _ _ _ _ H2)) as (st2 & P4 & _). cbv zeta in P4. rewrite U2 in P4. cbn [after] in P4.
  assert (Q3 : stateOf C P p c3 = Some s) by (rewrite <- P1; unfold stateOf; rewrite O3, O2; reflexivity). rewrite Q3 in P4. unfold afterUnknown in P4.
  rewrite (hf_name _ _ _ _ _ H2), (bltb_asym _ _ LT), Bool.andb_false_r in P4.
  assert (P5 : stateOf C P p c4 = Some s) by (rewrite P4; destruct (option_map _ _); reflexivity).
  assert (Q4 : stateOf C P (negb p) c4 = stateOf C P (negb p) c3) by (unfold stateOf; rewrite O4; reflexivity). rewrite P3 in Q4.
  exists s. eexists. split; [exact P5|]. split; [exact Q4|]. rewrite E1. cbn [stateNew stSenderPub stRecipTemp stKeyInit stNextSender stNextSeen]. repeat split.
Qed.
End Simul.
