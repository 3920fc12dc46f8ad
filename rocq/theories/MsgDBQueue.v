(* The out-queue invariant of the message database. *)
From Verif Require Import Base Base64Model Base64Proofs IdentityModel IdentityProofs Maps SqlModel SqlProofs MsgDBModel MsgDBProofs.
From Coq Require Import Sorting.Sorted.
Local Open Scope N_scope.

(* the out-queue entries of a message *)
Definition entriesOf (out : tbl oqRow) (i : N) : tbl oqRow := tsel (fun _ o => oMsgID o =? i) out.
Definition qOk (out : tbl oqRow) (i : N) (m : msgRow) : Prop :=
  match mDir m, mToSend m, mSent m with
  | true, true, false => entriesOf out i = []
  | true, false, false => exists e, entriesOf out i = [e] /\ oSelf (snd e) = mSelf m
  | true, false, true => entriesOf out i = []
  | false, false, false => entriesOf out i = []
  | _, _, _ => False
  end.
Definition qInv (db : msgdb) : Prop := forall i m, In (i, m) (dbMsgs db) -> qOk (dbOut db) i m.

Lemma tsel_tupd_keep {A} p q (f : A -> A) t :
  (forall i a, q i a = true -> p i (f a) = p i a) -> tsel p (tupd q f t) = tupd q f (tsel p t).
Proof.
  intros H. unfold tsel, tupd. induction t as [|[i a] t IH]; [reflexivity|]. cbn [map filter fst snd].
  destruct (q i a) eqn:E; cbn [fst snd].
  - rewrite (H _ _ E). destruct (p i a); cbn [map fst snd]; rewrite ?E, IH; reflexivity.
  - destruct (p i a); cbn [map fst snd]; rewrite ?E, IH; reflexivity.
Qed.
Lemma qOk_same out out' i m m' : entriesOf out' i = entriesOf out i ->
  mDir m' = mDir m -> mToSend m' = mToSend m -> mSent m' = mSent m -> mSelf m' = mSelf m -> qOk out i m -> qOk out' i m'.
Proof. unfold qOk. intros -> -> -> -> ->. auto. Qed.
Lemma qOk_out_upd p f out i m : (forall o, oSelf (f o) = oSelf o /\ oMsgID (f o) = oMsgID o) ->
  qOk out i m -> qOk (tupd p f out) i m.
Proof.
  intros K. unfold qOk, entriesOf. rewrite tsel_tupd_keep by (intros j a _; destruct (K a) as [_ ->]; reflexivity).
  destruct (mDir m), (mToSend m), (mSent m); try tauto; try (intros ->; reflexivity).
  intros [[j o] [-> E]]. cbn [tupd map fst snd] in *. destruct (p j o).
  - exists (j, f o). split; [reflexivity|]. cbn [snd]. destruct (K o) as [-> _]. exact E.
  - exists (j, o). split; [reflexivity|exact E].
Qed.

Section Q.
  Variable U : Unicode.
  (* the only use of AddOutQueue in the program: the message just returned by
     GetUndeliveredMessage (ctrlengine/msg.go:461-519) *)
  Definition permitted (db : msgdb) (o : dop) : Prop :=
    match o with
    | DAddOutQueue my i _ _ _ _ => exists c t s a b, getUndelivered U my db = Ok (Some (i, c, t, s, a, b))
    | _ => True
    end.

  Lemma out_msg db i o : Inv U db -> In (i, o) (dbOut db) -> exists m, In (oMsgID o, m) (dbMsgs db).
  Proof.
    intros V I. destruct (iv_out _ _ V) as [_ B]. rewrite Forall_forall in B. destruct (B _ I) as [_ [s Y]].
    unfold mkeys in Y. apply in_map_iff in Y as [[j m] [E J]]. cbn [fst snd] in E. injection E as -> _. eauto.
  Qed.
  Lemma entries_fresh db : Inv U db -> entriesOf (dbOut db) (nextId (dbMsgs db)) = [].
  Proof.
    intros V. apply tsel_none. intros i o I. destruct (out_msg _ _ _ V I) as [m J].
    apply N.eqb_neq. pose proof (nextId_gt _ _ J). cbn [fst] in H. lia.
  Qed.
  Lemma qInv_insMsg m db : Inv U db -> qInv db -> mDir m = mToSend m -> mSent m = false ->
    qInv (withMsgs (tins m (dbMsgs db)) db).
  Proof.
    intros V Q E F i x I. cbn [withMsgs dbMsgs dbOut] in *. apply In_tins in I as [I|I]; [apply Q; exact I|].
    injection I as -> ->. unfold qOk. rewrite (entries_fresh _ V), F, E. destruct (mToSend m); reflexivity.
  Qed.
  Lemma qInv_updMsgs_same p f db : qInv db ->
    (forall m, mDir (f m) = mDir m /\ mToSend (f m) = mToSend m /\ mSent (f m) = mSent m /\ mSelf (f m) = mSelf m) ->
    qInv (withMsgs (tupd p f (dbMsgs db)) db).
  Proof.
    intros Q K i x I. cbn [withMsgs dbMsgs dbOut] in *. apply In_tupd in I as [[j m] [I E]]. cbn [fst snd] in E.
    destruct (p j m); injection E as -> ->; [|apply Q; exact I].
    destruct (K m) as [A [B [C D]]]. eapply qOk_same; try eassumption; [reflexivity|]. apply Q; exact I.
  Qed.
  Lemma qInv_updOut p f db : qInv db -> (forall o, oSelf (f o) = oSelf o /\ oMsgID (f o) = oMsgID o) ->
    qInv (withOut (tupd p f (dbOut db)) db).
  Proof. intros Q K i x I. cbn [withOut dbMsgs dbOut] in *. apply qOk_out_upd; [exact K|]. apply Q; exact I. Qed.
  Lemma entries_cascade p db j m : Inv U db -> In (j, m) (dbMsgs db) -> p j m = false ->
    entriesOf (dbOut (cascadeMsgs p db)) j = entriesOf (dbOut db) j.
  Proof.
    intros V I P. cbn [cascadeMsgs withOut dbOut]. unfold entriesOf. apply tsel_tdel_other.
    intros i o _ T. apply thas_true in T as [[k x] [K Y]]. cbn [fst snd] in Y. apply andb_prop in Y as [Y Z].
    apply N.eqb_eq in Z. apply N.eqb_neq. intros W. subst k. rewrite W in K, Y.
    destruct (iv_msgs _ _ V) as [O _]. rewrite (idsOk_unique _ _ _ _ O I K) in P. congruence.
  Qed.
  Lemma qInv_cascadeMsgs p db : Inv U db -> qInv db -> qInv (cascadeMsgs p db).
  Proof.
    intros V Q i x I. cbn [cascadeMsgs withOut withMsgs dbMsgs] in I. apply In_tdel in I as [I P]. cbn [fst snd] in P.
    eapply qOk_same; [eapply entries_cascade; eassumption|..]; try reflexivity. apply Q; exact I.
  Qed.
  Lemma In_entries out i e : In e (entriesOf out i) <-> In e out /\ oMsgID (snd e) = i.
  Proof. unfold entriesOf. rewrite In_tsel, N.eqb_eq. reflexivity. Qed.
  Lemma qOwner db i o m : qInv db -> In (i, o) (dbOut db) -> In (oMsgID o, m) (dbMsgs db) ->
    mDir m = true /\ mToSend m = false /\ mSent m = false /\ oSelf o = mSelf m /\ entriesOf (dbOut db) (oMsgID o) = [(i, o)].
  Proof.
    intros Q I J. pose proof (Q _ _ J) as K. unfold qOk in K.
    assert (E : In (i, o) (entriesOf (dbOut db) (oMsgID o))) by (apply In_entries; split; [exact I|reflexivity]).
    destruct (mDir m), (mToSend m), (mSent m); try tauto; try (rewrite K in E; destruct E).
    destruct K as [e [K L]]. rewrite K in E. destruct E as [->|[]]. cbn [snd] in L. repeat (split; [first [reflexivity|exact L]|]). exact K.
  Qed.
  Lemma qInv_cascadeNym uid db : Inv U db -> qInv db -> qInv (cascadeNym uid db).
  Proof.
    intros V Q. pose proof (qInv_cascadeMsgs (fun _ m => mSelf m =? uid) _ V Q) as Q'.
    pose proof (Inv_cascadeMsgs _ (fun _ m => mSelf m =? uid) _ V) as V'.
    intros i x I. unfold cascadeNym in *. cbn [dbMsgs dbOut] in I |- *.
    pose proof (Q' _ _ I) as K.
    assert (NE : mSelf x <> uid).
    { cbn [cascadeMsgs withOut withMsgs dbMsgs] in I. apply In_tdel in I as [_ P]. cbn [snd] in P. apply N.eqb_neq; exact P. }
    eapply qOk_same; [|reflexivity..|exact K]. unfold entriesOf. apply tsel_tdel_other.
    intros j o J S. apply N.eqb_eq in S. apply N.eqb_neq. intros W. rewrite <- W in I.
    destruct (qOwner _ _ _ _ Q' J I) as [_ [_ [_ [R _]]]]. congruence.
  Qed.
  Lemma qInv_addOut my i e n a b db db' : Inv U db -> qInv db ->
    (exists c t s a b, getUndelivered U my db = Ok (Some (i, c, t, s, a, b))) ->
    addOutQueue U my i e n a b db = Ok db' -> qInv db'.
  Proof.
    intros V Q [c [t [s [a' [b' G]]]]] H. unfold getUndelivered in G. inv1 G. inv1 G.
    destruct (tmin _ _) as [[i' m]|] eqn:TM; [|discriminate]. inv1 G. apply Ok_eq in G. injection G as G _ _ _ _ _. subst i'.
    apply tmin_some in TM as [I P]. cbn [snd] in P. apply andb_prop in P as [P1 P2]. apply N.eqb_eq in P1.
    unfold addOutQueue in H. inv1 H. inv1 H. inv1 H. apply Ok_eq in H as <-.
    rewrite E0 in E3. apply Ok_eq in E3 as <-.
    pose proof (Q _ _ I) as K. unfold qOk in K. rewrite P2 in K.
    destruct (mDir m) eqn:D; [|contradiction]. destruct (mSent m) eqn:S; [contradiction|].
    destruct (iv_msgs _ _ V) as [O _].
    intros j x J. cbn [withOut withMsgs dbMsgs dbOut] in *.
    apply In_tupd in J as [[k y] [J R]]. cbn [fst snd] in R.
    unfold qOk, entriesOf. rewrite tsel_tins. cbn [oMsgID].
    destruct (N.eqb_spec k i) as [->|NE]; injection R as -> ->.
    - rewrite (idsOk_unique _ _ _ _ O J I). unfold setToSend. cbn [mDir mToSend mSent mSelf]. rewrite D, S, N.eqb_refl.
      change (tsel (fun _ o => oMsgID o =? i) (dbOut db)) with (entriesOf (dbOut db) i). rewrite K.
      eexists. split; [reflexivity|]. cbn [snd oSelf]. congruence.
    - replace (i =? k) with false by (symmetry; apply N.eqb_neq; congruence). rewrite app_nil_r. apply (Q _ _ J).
  Qed.
  Lemma qInv_remOut idx f db o : Inv U db -> qInv db -> tget idx (dbOut db) = Some o ->
    (forall m, mSelf (f m) = mSelf m /\ (mDir m = true -> mToSend m = false -> mSent m = false ->
       mDir (f m) = true /\ (mToSend (f m) = true /\ mSent (f m) = false \/ mToSend (f m) = false /\ mSent (f m) = true))) ->
    qInv (withOut (tdel (fun i _ => i =? idx) (dbOut db)) (withMsgs (tupd (fun i _ => i =? oMsgID o) f (dbMsgs db)) db)).
  Proof.
    intros V Q T K j x J. apply tget_In in T. destruct (out_msg _ _ _ V T) as [m0 M0].
    destruct (qOwner _ _ _ _ Q T M0) as [D [TS [S [OS EN]]]].
    destruct (iv_msgs _ _ V) as [O _]. destruct (iv_out _ _ V) as [OO _].
    cbn [withOut withMsgs dbMsgs dbOut] in *. apply In_tupd in J as [[k y] [J R]]. cbn [fst snd] in R.
    destruct (N.eqb_spec k (oMsgID o)) as [->|NE]; injection R as -> ->.
    - rewrite (idsOk_unique _ _ _ _ O J M0). destruct (K m0) as [_ K2]. destruct (K2 D TS S) as [D' ST].
      assert (EE : entriesOf (tdel (fun i _ => i =? idx) (dbOut db)) (oMsgID o) = []).
      { apply tsel_none. intros i r I. apply In_tdel in I as [I P]. cbn [fst] in P. apply N.eqb_neq in P.
        apply N.eqb_neq. intros F.
        assert (W : In (i, r) (entriesOf (dbOut db) (oMsgID o))) by (apply In_entries; split; assumption).
        rewrite EN in W. destruct W as [W|[]]. injection W as -> _. congruence. }
      unfold qOk. rewrite EE, D'. destruct ST as [[-> ->]|[-> ->]]; reflexivity.
    - eapply qOk_same; [|reflexivity..|exact (Q _ _ J)]. unfold entriesOf. apply tsel_tdel_other.
      intros i r I W. apply N.eqb_eq in W as ->. apply N.eqb_neq. rewrite (idsOk_unique _ _ _ _ OO I T). congruence.
  Qed.

  Lemma qInv_dexec o db db' : Inv U db -> qInv db -> permitted db o -> dexec U o db = Ok db' -> qInv db'.
  Proof.
    intros V Q P. destruct o; cbn [dexec permitted] in *; intros H.
    - unfold addValue in H. invs H. apply Ok_eq in H as <-. exact Q.
    - unfold addNym in H. inv1 H. inv1 H. inv1 H. inv1 H. inv1 H. destruct (thas _ _); inv1 H; apply Ok_eq in H as <-; exact Q.
    - unfold delNym in H. inv1 H. inv1 H. destruct a0. inv1 H. inv1 H. inv1 H. apply Ok_eq in H as <-.
      apply qInv_cascadeNym; assumption.
    - unfold setUpkeepAll in H. invs H. apply Ok_eq in H as <-. exact Q.
    - unfold setUpkeepAccounts in H. invs H. apply Ok_eq in H as <-. exact Q.
    - unfold addContact in H. inv1 H. inv1 H. inv1 H. inv1 H. inv1 H. inv1 H. destruct (thas _ _); apply Ok_eq in H as <-; exact Q.
    - unfold removeContact in H. invs H. apply Ok_eq in H as <-. exact Q.
    - unfold addAccount in H. inv1 H. destruct a as [mI cI]. inv1 H. apply Ok_eq in H as <-. exact Q.
    - unfold setAccountTime in H. inv1 H. destruct a as [mI cI]. apply Ok_eq in H as <-. exact Q.
    - unfold setAccountLastMsg in H. inv1 H. destruct a as [mI cI]. apply Ok_eq in H as <-. exact Q.
    - unfold addMessage in H. inv1 H. inv1 H. inv1 H. inv1 H. apply Ok_eq in H as <-. apply qInv_insMsg; auto.
    - apply Ok_eq in H as <-. apply qInv_updMsgs_same; auto.
    - unfold delMessage in H. inv1 H. inv1 H. inv1 H. apply Ok_eq in H as <-. apply qInv_cascadeMsgs; assumption.
    - eapply qInv_addOut; eassumption.
    - apply Ok_eq in H as <-. apply qInv_updOut; auto.
    - unfold removeOutQueue in H. inv1 H. apply Ok_eq in H as <-. apply qInv_remOut; [exact V|exact Q|exact E|].
      intros m. split; [reflexivity|]. intros D T S. cbn [setSent mDir mToSend mSent]. auto.
    - unfold retractOutQueue in H. inv1 H. apply Ok_eq in H as <-. apply qInv_remOut; [exact V|exact Q|exact E|].
      intros m. split; [reflexivity|]. intros D T S. cbn [setToSend mDir mToSend mSent]. auto.
    - apply Ok_eq in H as <-. apply qInv_updOut; auto.
    - unfold clearResendOutQueue in H. inv1 H. inv1 H. apply Ok_eq in H as <-. apply qInv_updOut; auto.
    - unfold addInQueue in H. inv1 H. destruct a as [mI cI]. apply Ok_eq in H as <-. exact Q.
    - apply Ok_eq in H as <-. exact Q.
    - unfold removeInQueue in H. inv1 H. inv1 H. inv1 H. inv1 H. apply Ok_eq in H as <-. destruct drop; [exact Q|].
      apply (qInv_insMsg (mkMsg (iMy a0) a1 false false false fromID a2 (iDate a0) (subjectOf plainMsg) plainMsg false 0 0 false) _ V Q); reflexivity.
    - apply Ok_eq in H as <-. exact Q.
    - unfold addCache in H. inv1 H. inv1 H. inv1 H. inv1 H. destruct a2. apply Ok_eq in H as <-. exact Q.
    - unfold removeCache in H. inv1 H. inv1 H. inv1 H. inv1 H. destruct a2. destruct (tmin _ _) as [[e r]|]; [|discriminate].
      apply Ok_eq in H as <-. exact Q.
  Qed.

  (* Databases reachable by the program: any sequence of permitted operations (crashes
     included, since an interrupted operation has no effect). *)
  Inductive history : msgdb -> Prop :=
  | h_new : history emptyDB
  | h_step db o : history db -> permitted db o -> history (dstep U db o).

  Lemma history_Inv db : history db -> Inv U db.
  Proof. induction 1; [apply Inv_empty|apply Inv_dstep; assumption]. Qed.
  Lemma history_qInv db : history db -> qInv db.
  Proof.
    induction 1 as [|db o H IH P]; [intros i m []|]. unfold dstep. destruct (dexec U o db) eqn:E; try exact IH.
    eapply qInv_dexec; try eassumption. apply history_Inv; exact H.
  Qed.
End Q.
