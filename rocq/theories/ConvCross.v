(* A conversation in which both parties propose a next session before they see the other's proposal: alice writes twice
   before bob answers. *)
From Verif Require Import Base Base64Model CodecModel JsonModel Maps CryptoModel StoreModel KeysModel KeysProofs MsgFormatModel HeaderModel ProtoModel ProtoProofs ProtoFirst SessState ConvModel ConvSteps ConvInv ConvProofs ConvSend ConvRecv ConvMain ConvEnabled ConvTrack ConvDyn ConvStuck ConvRun SessCount ConvToy ConvExample.
Local Open Scope N_scope.

Definition hello : bytes := str "hello".
Notation stateX := (stateOf toyI cxP).
Notation sendsX := (sends toyI cxP).
Notation getsX := (gets toyI cxP).
Notation reachX := (reach toyI cxP cxStart).
(* the keys below n may be in use *)
Record cxAt (n : N) (c : conv) : Prop := {
  ca_ord : orderly toyI cxP cxStart c;
  ca_used : exists l, cUsed c = map keyN l /\ NoDup l /\ Forall (fun k => k < n) l;
  ca_cnt : forall p ss, stateX p c = Some ss -> stMsgCount ss < n;
  ca_net : forall p m, In m (cNet c p) -> sNum m < n;
  ca_pub : forall p, pubKEs (cStore c p) = pubKEs (cStore cxStart p) }.
Lemma cxAt_start : cxAt 5 cxStart.
Proof.
  constructor; [constructor; apply cx_start| |intros p ss Q; discriminate|intros p m []|reflexivity]. exists [1; 2; 3; 4]. split; [reflexivity|]. split; [|repeat constructor; lia].
  repeat (constructor; [cbn [In]; intros Q; repeat (destruct Q as [Q|Q]; [discriminate|]); exact Q|]). constructor.
Qed.
Lemma pubKEs_fold l : forall st, pubKEs (fold_left (fun s o => apply_op o s) l st) = pubKEs st.
Proof.
  induction l as [|o l IH]; intros st; cbn [fold_left]; [reflexivity|]. rewrite IH. destruct o; cbn [apply_op pubKEs]; try reflexivity;
    match goal with |- context [match ?x with _ => _ end] => destruct x; reflexivity end.
Qed.
Lemma traced_any {A} (m : M A) w r w' : traced (fun _ => True) m -> m w = (r, w') -> pubKEs (wStore w') = pubKEs (wStore w).
Proof. intros T E. destruct (T w) as (l & L & _). rewrite E in L. cbn [snd] in L. subst w'. rewrite steps_store. apply pubKEs_fold. Qed.
Lemma traced_encrypt_any C a r : traced (fun _ => True) (encrypt C a r).
Proof.
  unfold encrypt. apply traced_bind; [eapply traced_weaken; [|apply traced_encState]; auto|]. intros [nym ss]. apply traced_bind; [apply traced_lift|]. intros hp.
  apply traced_bind; [eapply traced_weaken; [|apply traced_encKey]; auto|]. intros [sk mk]. cbv zeta. destruct (_ <? _); [apply traced_pure; reflexivity|].
  apply traced_bind; [apply traced_lift|]. intros body. destruct (negb _); [apply traced_pure; reflexivity|]. unfold delMessageKey. trk.
Qed.
Lemma run_pubKEs C a r st x w : run (encrypt C a r) st = (x, w) -> pubKEs (wStore w) = pubKEs st.
Proof. unfold run. intros E. exact (traced_any _ _ _ _ (traced_encrypt_any C a r) E). Qed.
Lemma cx_send_gen a n c p coin : sendOk toyI cxP p a (cxRnd n (n + 1) coin) -> writable toyI a (cxRnd n (n + 1) coin) -> n < 200 -> cxAt n c ->
  exists m c', sendsX p a (cxRnd n (n + 1) coin) m c c' /\ cxAt (n + 2) c' /\ cNet c' p = cNet c p ++ [m] /\ cNet c' (negb p) = cNet c (negb p).
Proof.
  intros SO WR L [O (l & U & N & F) MC NM PB].
  destruct (reach_inv toyI cxP _ _ (orderly_reach _ _ _ _ O) (toyI_noColl _ _)) as [g I].
  assert (N2 : NoDup ([n; n + 1] ++ l)).
  { cbn [app]. constructor; [|constructor; [|exact N]].
    - intros [Q|Q]; [lia|]. rewrite Forall_forall in F. specialize (F _ Q). lia.
    - intros Q. rewrite Forall_forall in F. specialize (F _ Q). lia. }
  assert (FR : fresh toyI [rHeaderPriv (cxRnd n (n + 1) coin); rSessPriv (cxRnd n (n + 1) coin)] (cUsed c)).
  { unfold fresh, cxRnd. cbn [rHeaderPriv rSessPriv]. rewrite U. apply (keys_fresh ([n; n + 1] ++ l) N2).
    cbn [app]. constructor; [lia|]. constructor; [lia|]. eapply Forall_impl; [|exact F]. cbn beta. lia. }
  destruct (send_enabled toyI cxP c g p a (cxRnd n (n + 1) coin) I (toyI_noColl _ _) SO WR FR) as (nym & w & E).
  { left. rewrite PB. cbn [cxStart cStore cxP pName]. unfold cxStore. cbn [pubKEs mget]. rewrite beq_refl. discriminate. }
  assert (NB : numOf toyI cxP p a (cStore c p) < n + 2).
  { unfold numOf. destruct (eStatus a =? StatusReset); [lia|]. fold (stateX p c).
    destruct (stateX p c) as [ss|] eqn:Es; [specialize (MC _ _ Es); lia|lia]. }
  assert (NB' : numOf toyI cxP p a (cStore c p) + 1 < 2 ^ 63) by lia.
  pose proof (SoSend toyI cxP p _ _ c nym w SO NB' FR E) as STP.
  eexists _, _. split; [|split; [|split]].
  - split; [exact SO|]. split; [exact NB'|]. split; [exact FR|]. exists nym, w. split; [exact E|]. split; reflexivity.
  - constructor; [eapply OrdStep; [exact O|exact STP]| | | |].
    + exists (n :: n + 1 :: l). cbn [cUsed map]. split; [rewrite U; reflexivity|]. split; [exact N2|].
      constructor; [lia|]. constructor; [lia|]. eapply Forall_impl; [|exact F]. cbn beta. lia.
    + intros q ss. unfold stateOf. cbn [cStore]. destruct (upd_cases (cStore c) p (wStore w) q) as [[-> ->]|[-> ->]]; [|intros Q; specialize (MC _ _ Q); lia].
      pose proof (send_track toyI cxP p _ _ _ nym w SO E) as TR. fold (stateX p c) in TR.
      destruct (if eStatus a =? StatusReset then None else stateX p c) as [s0|] eqn:Es.
      * rewrite TR. intros Q. apply someInj in Q. subst ss. cbn [stateNext stMsgCount]. assert (Es' : stateX p c = Some s0) by (destruct (eStatus a =? StatusReset); [discriminate Es|exact Es]). specialize (MC _ _ Es'). unfold u64. rewrite N.mod_small; lia.
      * destruct TR as (rt & ny & _ & TR). rewrite TR. intros Q. apply someInj in Q. subst ss. cbn [stateNew stMsgCount]. lia.
    + intros q m. cbn [cNet]. match goal with |- context[upd (cNet c) p ?l] => destruct (upd_cases (cNet c) p l q) as [[-> ->]|[-> ->]] end; [|intros Q; specialize (NM _ _ Q); lia].
      intros Q. apply in_app_or in Q as [Q|[<-|[]]]; [specialize (NM _ _ Q); lia|]. exact NB.
    + intros q. cbn [cStore]. destruct (upd_cases (cStore c) p (wStore w) q) as [[-> ->]|[-> ->]]; [|apply PB]. rewrite <- PB.
      exact (run_pubKEs _ _ _ _ _ _ E).
  - cbn [cNet]. apply upd_same.
  - cbn [cNet]. apply upd_other.
Qed.
Lemma cx_send_st st n c p coin : st < 10 -> n < 200 -> cxAt n c ->
  exists m c', sendsX p (cxArgs p hello st) (cxRnd n (n + 1) coin) m c c' /\ cxAt (n + 2) c' /\ cNet c' p = cNet c p ++ [m] /\ cNet c' (negb p) = cNet c (negb p).
Proof.
  intros HS. apply cx_send_gen.
  - refine (cx_sendOk p hello st n (n + 1) coin _ _); [apply wfbb_spec; reflexivity|lia].
  - refine (cx_writable p hello st n (n + 1) coin _ HS). vm_compute; discriminate.
Qed.
Lemma cx_send n c p coin : n < 200 -> cxAt n c ->
  exists m c', sendsX p (cxArgs p hello 0) (cxRnd n (n + 1) coin) m c c' /\ cxAt (n + 2) c' /\ cNet c' p = cNet c p ++ [m] /\ cNet c' (negb p) = cNet c (negb p).
Proof. apply cx_send_st. reflexivity. Qed.
Lemma cx_get n c p m l : n < 200 -> cxAt n c -> cNet c (negb p) = m :: l ->
  exists c', getsX p (cxRa p n) m c c' /\ cxAt (n + 1) c' /\ cNet c' (negb p) = l /\ cNet c' p = cNet c p.
Proof.
  intros L [O (l0 & U & N & F) MC NM PB] NT.
  destruct (reach_inv toyI cxP _ _ (orderly_reach _ _ _ _ O) (toyI_noColl _ _)) as [g I].
  assert (N2 : NoDup ([n] ++ l0)).
  { constructor; [|exact N]. intros Q. rewrite Forall_forall in F. specialize (F _ Q). lia. }
  assert (FR : fresh toyI [dPriv (cxRa p n)] (cUsed c)).
  { unfold fresh, cxRa. cbn [dPriv]. rewrite U. apply (keys_fresh ([n] ++ l0) N2). cbn [app]. constructor; [lia|]. eapply Forall_impl; [|exact F]. cbn beta. lia. }
  assert (NU : sNum m <= 300). { specialize (NM (negb p) m). rewrite NT in NM. specialize (NM (or_introl eq_refl)). lia. }
  destruct (recv_inv toyI cxP c g p (cxRa p n) [] m l I (toyI_noColl _ _) NT (cx_recvOk p _) FR) as [(_ & w & g' & E & _)|(IR & _)].
  2:{ exfalso. apply IR. right. exists 6. change (numKeys (dNumKeys (cxRa p n))) with 50. lia. }
  pose proof (SoRecv toyI cxP p (cxRa p n) c m l _ w NT (cx_recvOk p _) FR E) as STP.
  eexists. split; [|split; [|split]].
  - split; [apply cx_recvOk|]. split; [exact FR|]. exists [], l. eexists _, w. split; [exact NT|]. split; [exact E|]. reflexivity.
  - constructor; [eapply OrdStep; [exact O|exact STP]| | | |].
    + exists (n :: l0). cbn [cUsed map app]. split; [rewrite U; reflexivity|]. split; [exact N2|]. constructor; [lia|]. eapply Forall_impl; [|exact F]. cbn beta. lia.
    + intros q ss. unfold stateOf. cbn [cStore]. destruct (upd_cases (cStore c) p (wStore w) q) as [[-> ->]|[-> ->]]; [|intros Q; specialize (MC _ _ Q); lia].
      intros Q. destruct (stateX p c) as [s0|] eqn:Es.
      * destruct (receive_keeps _ _ _ _ _ _ E _ _ Es) as (s' & Q1 & [(_ & _ & Q2)|(_ & _ & Q2 & _)]); rewrite Q in Q1; apply someInj in Q1; subst s'; specialize (MC _ _ Es); lia.
      * pose proof (receive_states _ _ _ _ _ _ E (stateKey toyI cxP p)) as S. cbn [wStore] in S. fold (stateX p c) in S. rewrite Es in S. destruct (S _ Q) as (_ & S2 & _). lia.
    + intros q m'. cbn [cNet app]. destruct (upd_cases (cNet c) (negb p) l q) as [[-> ->]|[-> ->]]; [|intros Q; specialize (NM _ _ Q); lia].
      intros Q. specialize (NM (negb p) m'). rewrite NT in NM. specialize (NM (or_intror Q)). lia.
    + intros q. cbn [cStore]. destruct (upd_cases (cStore c) p (wStore w) q) as [[-> ->]|[-> ->]]; [|apply PB]. rewrite <- PB. unfold run in E.
      refine (traced_any _ _ _ _ _ E). intros v. destruct (at_receive toyI (cxRa p n) (sWire m) v) as (l1 & L1 & _). exists l1. split; [exact L1|]. apply Forall_forall. auto.
  - cbn [cNet app]. apply upd_same.
  - cbn [cNet app]. unfold upd. destruct p; reflexivity.
Qed.
(* alice writes, bob receives, alice writes again and proposes *)
Theorem cross : exists c, orderly toyI cxP cxStart c /\ (forall p, exists ss, stateX p c = Some ss /\ waits cxP p ss) /\
  (exists s t, stateX true c = Some s /\ stateX false c = Some t /\ agree s t) /\ cNet c false = [] /\ exists m, cNet c true = [m] /\ stuckMsg toyI cxP true m.
Proof.
  destruct (cx_send 5 cxStart true false) as (m0 & c1 & S0 & A1 & N1 & N1'); [lia|exact cxAt_start|].
  cbn [cxStart cNet app] in N1. cbn [cxStart cNet negb] in N1'.
  destruct (cx_get (5 + 2) c1 false m0 []) as (c2 & G0 & A2 & N2 & N2'); [lia|exact A1|exact N1|].
  rewrite N1' in N2'. cbn [negb] in N2.
  destruct (first_exchange toyI cxP true _ _ _ _ _ _ _ cx_start S0 G0 (toyI_noColl _ _)) as (kb & ny & nym & K & P1 & P2 & Q2). cbn [negb] in Q2.
  destruct (cx_send (5 + 2 + 1) c2 true true) as (m1 & c3 & S1 & A3 & N3 & N3'); [lia|exact A2|].
  rewrite N2 in N3. cbn [app] in N3. cbn [negb] in N3'. rewrite N2' in N3'.
  destruct (sends_state toyI cxP _ _ _ _ _ _ _ (orderly_reach _ _ _ _ (ca_ord _ _ A2)) S1 (toyI_noColl _ _)) as (s1 & h1 & P3 & H1 & CA1 & E1).
  change (eStatus (cxArgs true hello 0) =? StatusReset) with false in E1. cbv iota in E1. rewrite P2 in E1.
  assert (Q3 : stateX false c3 = stateX false c2) by (pose proof (sends_other _ _ _ _ _ _ _ _ S1) as GO; cbn [negb] in GO; unfold stateOf; rewrite GO; reflexivity). rewrite Q2 in Q3.
  exists c3. split; [apply (ca_ord _ _ A3)|]. split; [|split; [|split; [exact N3'|exists m1; split; [exact N3|]]]].
  - intros [|]; eexists; (split; [eassumption|]).
    + rewrite E1. constructor; [discriminate|reflexivity|right; vm_compute; reflexivity].
    + constructor; [discriminate|reflexivity|now left].
  - exists s1. eexists. split; [exact P3|]. split; [exact Q3|]. rewrite E1. split; reflexivity.
  - exists h1. split; [exact CA1|]. split; [apply (hf_name _ _ _ _ _ H1)|]. split; [apply (hf_pub _ _ _ _ _ H1)|]. rewrite (hf_seen _ _ _ _ _ H1), E1. reflexivity.
Qed.

(* alice writes and bob answers three times: the hypotheses of [change_session] *)
Theorem exchange : exists c1 c2 c3 c4 c5 c6 c7 c8 a1 r1 m1 ra1 a2 r2 m2 ra2 a3 r3 m3 ra3 s t k,
  reachX c2 /\ reachX c1 /\ reachX c7 /\ stateX false c2 = Some s /\ stateX true c2 = Some t /\ agree s t /\ stNextSender s = Some k /\ stNextSender t = None /\ stNextSeen t = None /\
  sendsX false a1 r1 m1 c2 c3 /\ getsX true ra1 m1 c3 c4 /\ sendsX true a2 r2 m2 c4 c5 /\ getsX false ra2 m2 c5 c6 /\ sendsX false a3 r3 m3 c6 c7 /\ getsX true ra3 m3 c7 c8 /\
  eStatus a1 <> StatusReset /\ eStatus a2 <> StatusReset /\ eStatus a3 <> StatusReset.
Proof.
  destruct (cx_send 5 cxStart true false) as (m0 & c1 & S0 & A1 & N1 & N1'); [lia|exact cxAt_start|].
  cbn [cxStart cNet app] in N1. cbn [cxStart cNet negb] in N1'.
  destruct (cx_get (5 + 2) c1 false m0 []) as (c2 & G0 & A2 & N2 & N2'); [lia|exact A1|exact N1|].
  rewrite N1' in N2'. cbn [negb] in N2.
  destruct (first_exchange toyI cxP true _ _ _ _ _ _ _ cx_start S0 G0 (toyI_noColl _ _)) as (kb & ny & nym & K & P1 & P2 & Q2). cbn [negb] in Q2.
  destruct (cx_send 8 c2 false false) as (m1 & c3 & S1 & A3 & N3 & N3'); [lia|exact A2|]. cbn [negb] in N3'. rewrite N2' in N3. rewrite N2 in N3'. cbn [app] in N3.
  destruct (cx_get 10 c3 true m1 []) as (c4 & G1 & A4 & N4 & N4'); [lia|exact A3|exact N3|]. cbn [negb] in N4. rewrite N3' in N4'.
  destruct (cx_send 11 c4 true false) as (m2 & c5 & S2 & A5 & N5 & N5'); [lia|exact A4|]. cbn [negb] in N5'. rewrite N4' in N5. rewrite N4 in N5'. cbn [app] in N5.
  destruct (cx_get 13 c5 false m2 []) as (c6 & G2 & A6 & N6 & N6'); [lia|exact A5|exact N5|]. cbn [negb] in N6. rewrite N5' in N6'.
  destruct (cx_send 14 c6 false false) as (m3 & c7 & S3 & A7 & N7 & N7'); [lia|exact A6|]. cbn [negb] in N7'. rewrite N6' in N7. cbn [app] in N7.
  destruct (cx_get 16 c7 true m3 []) as (c8 & G3 & A8 & N8 & N8'); [lia|exact A7|exact N7|].
  exists c1, c2, c3, c4, c5, c6, c7, c8. eexists _, _, m1, _, _, _, m2, _, _, _, m3, _, _, _, _.
  split; [apply orderly_reach, (ca_ord _ _ A2)|]. split; [apply orderly_reach, (ca_ord _ _ A1)|]. split; [apply orderly_reach, (ca_ord _ _ A7)|].
  split; [exact Q2|]. split; [exact P2|]. split; [split; reflexivity|]. split; [reflexivity|]. split; [reflexivity|]. split; [reflexivity|].
  split; [exact S1|]. split; [exact G1|]. split; [exact S2|]. split; [exact G2|]. split; [exact S3|]. split; [exact G3|]. repeat split; discriminate.
Qed.
(* both write before they receive *)
Theorem atOnce : exists c1 c2 c3 c4 a r m a' r' m' ra ra',
  sendsX true a r m cxStart c1 /\ sendsX false a' r' m' c1 c2 /\ getsX false ra m c2 c3 /\ getsX true ra' m' c3 c4.
Proof.
  destruct (cx_send 5 cxStart true false) as (m0 & c1 & S0 & A1 & N1 & N1'); [lia|exact cxAt_start|].
  cbn [cxStart cNet app] in N1. cbn [cxStart cNet negb] in N1'.
  destruct (cx_send (5 + 2) c1 false false) as (m1 & c2 & S1 & A2 & N2 & N2'); [lia|exact A1|]. cbn [negb] in N2'. rewrite N1' in N2. rewrite N1 in N2'. cbn [app] in N2.
  destruct (cx_get (5 + 2 + 2) c2 false m0 []) as (c3 & G0 & A3 & N3 & N3'); [lia|exact A2|exact N2'|]. cbn [negb] in N3. rewrite N2 in N3'.
  destruct (cx_get (5 + 2 + 2 + 1) c3 true m1 []) as (c4 & G1 & A4 & N4 & N4'); [lia|exact A3|exact N3'|].
  exists c1, c2, c3, c4. eexists _, _, m0, _, _, m1, _, _. split; [exact S0|]. split; [exact S1|]. split; [exact G0|exact G1].
Qed.
