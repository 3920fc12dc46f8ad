(* What one local user can see of the message database, and who can change it. *)
From Verif Require Import Base Base64Model Base64Proofs IdentityModel IdentityProofs Maps SqlModel SqlProofs MsgDBModel MsgDBProofs MsgDBQueue.
From Coq Require Import Sorting.Sorted.
Local Open Scope N_scope.

(* everything stored for the user with number u *)
Record uview := mkView { vNym : tbl nymRow; vContacts : tbl contactRow; vAccounts : tbl accRow;
  vMsgs : tbl msgRow; vOut : tbl oqRow; vIn : tbl iqRow; vIds : tbl idRow }.
Definition view (u : N) (db : msgdb) : uview :=
  mkView (tsel (fun i _ => i =? u) (dbNyms db)) (tsel (fun _ c => cMy c =? u) (dbContacts db))
    (tsel (fun _ a => aMy a =? u) (dbAccounts db)) (tsel (fun _ m => mSelf m =? u) (dbMsgs db))
    (tsel (fun _ o => oSelf o =? u) (dbOut db)) (tsel (fun _ r => iMy r =? u) (dbIn db))
    (tsel (fun _ d => dMy d =? u) (dbIds db)).
(* the mapped identity of the user with number u *)
Definition nymName (db : msgdb) (u : N) : option bytes :=
  match tget u (dbNyms db) with Some n => Some (nMapped n) | None => None end.
(* on whose behalf an operation is: the identity it names, or the owner of the message
   or queue entry whose number it names *)
Definition actor (db : msgdb) (o : dop) : option bytes :=
  let outOwner i := match tget i (dbOut db) with Some r => nymName db (oSelf r) | None => None end in
  let inOwner i := match tget i (dbIn db) with Some r => nymName db (iMy r) | None => None end in
  match o with
  | DAddValue _ _ => None
  | DAddNym m _ _ | DDelNym m | DSetUpkeepAll m _ | DSetUpkeepAccounts m _ => Some m
  | DAddContact m _ _ _ _ | DRemoveContact m _ => Some m
  | DAddAccount m _ _ _ _ _ _ | DSetAccountTime m _ _ | DSetAccountLastMsg m _ _ => Some m
  | DAddMessage m _ _ _ _ _ _ _ => Some m
  | DReadMessage i => match tget i (dbMsgs db) with Some r => nymName db (mSelf r) | None => None end
  | DDelMessage m _ => Some m
  | DAddOutQueue m _ _ _ _ _ => Some m
  | DSetOutQueue i _ | DRemoveOutQueue i _ | DRetractOutQueue i | DSetResend i => outOwner i
  | DClearResend m => Some m
  | DAddInQueue m _ _ _ => Some m
  | DSetInQueue i _ | DRemoveInQueue i _ _ _ | DDelInQueue i => inOwner i
  | DAddCache m _ _ | DRemoveCache m _ _ => Some m
  end.

Lemma tsel_upd_In {A} p q (f : A -> A) t :
  (forall i a, In (i, a) t -> q i a = true -> p i a = false /\ p i (f a) = false) -> tsel p (tupd q f t) = tsel p t.
Proof.
  intros H. unfold tsel, tupd. induction t as [|[i a] t IH]; [reflexivity|]. cbn [map filter fst snd].
  assert (IH' : filter (fun r => p (fst r) (snd r)) (map (fun r => if q (fst r) (snd r) then (fst r, f (snd r)) else r) t)
                = filter (fun r => p (fst r) (snd r)) t) by (apply IH; intros; apply H; [now right|assumption]).
  destruct (q i a) eqn:E; cbn [fst snd].
  - destruct (H i a (or_introl eq_refl) E) as [-> ->]. exact IH'.
  - rewrite IH'. reflexivity.
Qed.
Lemma tsel_ins_other {A} p (a : A) t : p (nextId t) a = false -> tsel p (tins a t) = tsel p t.
Proof. intros H. rewrite tsel_tins, H. apply app_nil_r. Qed.

Section V.
  Variable U : Unicode.
  Lemma nymName_of db u b : Inv U db -> qNymUID b db = Ok u -> nymName db u = Some b.
  Proof.
    intros V Q. apply qNymUID_ok in Q as [n [I <-]]. unfold nymName.
    destruct (iv_nyms _ _ V) as [O _]. now rewrite (tget_intro _ _ _ O I).
  Qed.
  Lemma owner_ne db my m b u : Inv U db -> qNymUID b db = Ok u -> Some my <> Some b -> qNymUID my db = Ok m -> m <> u.
  Proof. intros V Q N E ->. apply N. f_equal. eapply qNymUID_inj; try eassumption. apply iv_nyms with (1 := V). Qed.
  Lemma neq_false a b : a <> b -> (a =? b) = false.
  Proof. apply N.eqb_neq. Qed.

  Lemma view_withNyms_upd my f db b u : Inv U db -> qNymUID b db = Ok u -> Some my <> Some b ->
    view u (withNyms (tupd (fun _ n => beq (nMapped n) my) f (dbNyms db)) db) = view u db.
  Proof.
    intros V Q N. unfold view. cbn [withNyms dbNyms dbContacts dbAccounts dbMsgs dbOut dbIn dbIds]. f_equal.
    apply tsel_upd_In. intros i a I P. apply beq_spec in P. enough (i <> u) by (split; apply neq_false; assumption).
    intros ->. apply N. f_equal. subst my. apply qNymUID_ok in Q as [n [J <-]].
    destruct (iv_nyms _ _ V) as [O _]. now rewrite (idsOk_unique _ _ _ _ O I J).
  Qed.
  Lemma entry_owner db i o : Inv U db -> qInv db -> In (i, o) (dbOut db) ->
    exists m, In (oMsgID o, m) (dbMsgs db) /\ mSelf m = oSelf o.
  Proof.
    intros V Q I. destruct (out_msg _ _ _ _ V I) as [m J]. exists m. split; [exact J|].
    destruct (qOwner _ _ _ _ Q I J) as [_ [_ [_ [-> _]]]]. reflexivity.
  Qed.
  Lemma view_cascadeMsgs p db u : Inv U db -> qInv db -> (forall i m, In (i, m) (dbMsgs db) -> p i m = true -> mSelf m <> u) ->
    view u (cascadeMsgs p db) = view u db.
  Proof.
    intros V Q H. unfold view. cbn [cascadeMsgs withOut withMsgs dbNyms dbContacts dbAccounts dbMsgs dbOut dbIn dbIds]. f_equal.
    - apply tsel_tdel_other. intros i m I P. apply neq_false. apply (H i m I P).
    - apply tsel_tdel_other. intros i o I T. apply thas_true in T as [[k x] [K Y]]. cbn [fst snd] in Y.
      apply andb_prop in Y as [Y Z]. apply N.eqb_eq in Z. subst k. apply neq_false.
      destruct (entry_owner _ _ _ V Q I) as [m [J E]]. destruct (iv_msgs _ _ V) as [O _].
      rewrite (idsOk_unique _ _ _ _ O J K) in E. rewrite <- E. apply (H _ _ K Y).
  Qed.
  Lemma view_updMsgs p f db u : (forall m, mSelf (f m) = mSelf m) ->
    (forall i m, In (i, m) (dbMsgs db) -> p i m = true -> mSelf m <> u) ->
    view u (withMsgs (tupd p f (dbMsgs db)) db) = view u db.
  Proof.
    intros K H. unfold view. cbn [withMsgs dbNyms dbContacts dbAccounts dbMsgs dbOut dbIn dbIds]. f_equal.
    apply tsel_upd_In. intros i a I P. rewrite K. split; apply neq_false; apply (H i a I P).
  Qed.
  Lemma view_updOut p f db u : (forall o, oSelf (f o) = oSelf o) ->
    (forall i o, In (i, o) (dbOut db) -> p i o = true -> oSelf o <> u) ->
    view u (withOut (tupd p f (dbOut db)) db) = view u db.
  Proof.
    intros K H. unfold view. cbn [withOut dbNyms dbContacts dbAccounts dbMsgs dbOut dbIn dbIds]. f_equal.
    apply tsel_upd_In. intros i a I P. rewrite K. split; apply neq_false; apply (H i a I P).
  Qed.
  Lemma view_delOut p db u : (forall i o, In (i, o) (dbOut db) -> p i o = true -> oSelf o <> u) ->
    view u (withOut (tdel p (dbOut db)) db) = view u db.
  Proof.
    intros H. unfold view. cbn [withOut dbNyms dbContacts dbAccounts dbMsgs dbOut dbIn dbIds]. f_equal.
    apply tsel_tdel_other. intros i a I P. apply neq_false, (H i a I P).
  Qed.
  Lemma view_delIn p db u : (forall i o, In (i, o) (dbIn db) -> p i o = true -> iMy o <> u) ->
    view u (withIn (tdel p (dbIn db)) db) = view u db.
  Proof.
    intros H. unfold view. cbn [withIn dbNyms dbContacts dbAccounts dbMsgs dbOut dbIn dbIds]. f_equal.
    apply tsel_tdel_other. intros i a I P. apply neq_false, (H i a I P).
  Qed.
  Lemma out_idx_owner db i r b u : Inv U db -> qNymUID b db = Ok u -> In (i, r) (dbOut db) ->
    match tget i (dbOut db) with Some r => nymName db (oSelf r) | None => None end <> Some b -> oSelf r <> u.
  Proof.
    intros V Q I N E. destruct (iv_out _ _ V) as [O _]. rewrite (tget_intro _ _ _ O I), E in N.
    apply N. apply nymName_of; assumption.
  Qed.
  Lemma in_idx_owner db i r b u : Inv U db -> qNymUID b db = Ok u -> In (i, r) (dbIn db) ->
    match tget i (dbIn db) with Some r => nymName db (iMy r) | None => None end <> Some b -> iMy r <> u.
  Proof.
    intros V Q I N E. destruct (iv_in _ _ V) as [O _]. rewrite (tget_intro _ _ _ O I), E in N.
    apply N. apply nymName_of; assumption.
  Qed.
  Lemma view_remOut i f db b u o : Inv U db -> qInv db -> qNymUID b db = Ok u -> tget i (dbOut db) = Some o ->
    nymName db (oSelf o) <> Some b -> (forall m, mSelf (f m) = mSelf m) ->
    view u (withOut (tdel (fun j _ => j =? i) (dbOut db)) (withMsgs (tupd (fun j _ => j =? oMsgID o) f (dbMsgs db)) db)) = view u db.
  Proof.
    intros V Q B T N K. pose proof (tget_In _ _ _ T) as I. destruct (entry_owner _ _ _ V Q I) as [m [J E]].
    assert (NE : oSelf o <> u) by (intros W; apply N; rewrite W; apply nymName_of; assumption).
    destruct (iv_msgs _ _ V) as [O _]. destruct (iv_out _ _ V) as [OO _].
    rewrite <- (view_updMsgs (fun j _ => j =? oMsgID o) f db u K).
    - apply (view_delOut (fun j _ => j =? i) (withMsgs (tupd (fun j _ => j =? oMsgID o) f (dbMsgs db)) db)).
      cbn [withMsgs dbOut]. intros j r R P. apply N.eqb_eq in P as ->. now rewrite (idsOk_unique _ _ _ _ OO R I).
    - intros j r R P. apply N.eqb_eq in P as ->. rewrite (idsOk_unique _ _ _ _ O R J). congruence.
  Qed.

  Lemma view_dexec o db db' b u : Inv U db -> qInv db -> permitted U db o -> qNymUID b db = Ok u ->
    actor db o <> Some b -> dexec U o db = Ok db' -> view u db' = view u db.
  Proof.
    intros V Q P B N. destruct o; cbn [dexec permitted actor] in *; intros H.
    - unfold addValue in H. invs H. apply Ok_eq in H as <-. reflexivity.
    - unfold addNym in H. inv1 H. inv1 H. inv1 H. inv1 H. inv1 H. destruct (thas _ _); inv1 H; apply Ok_eq in H as <-.
      + eapply view_withNyms_upd; eassumption.
      + unfold view. cbn [withNyms dbNyms dbContacts dbAccounts dbMsgs dbOut dbIn dbIds]. f_equal.
        apply tsel_ins_other. apply neq_false. apply qNymUID_ok in B as [n [I _]].
        pose proof (nextId_gt _ _ I) as G. cbn [fst] in G. lia.
    - unfold delNym in H. inv1 H. inv1 H. destruct a0. inv1 H. inv1 H. inv1 H. apply Ok_eq in H as <-.
      rename E2 into EU. pose proof (owner_ne _ _ _ _ _ V B N EU) as NE.
      rewrite <- (view_cascadeMsgs (fun _ m => mSelf m =? a1) db u V Q)
        by (intros i m _ W; apply N.eqb_eq in W; congruence).
      unfold cascadeNym. generalize (cascadeMsgs (fun _ m => mSelf m =? a1) db). intros d.
      unfold view. cbn [dbNyms dbContacts dbAccounts dbMsgs dbOut dbIn dbIds].
      f_equal; apply tsel_tdel_other; intros i r _ W; apply N.eqb_eq in W; apply neq_false; congruence.
    - unfold setUpkeepAll in H. invs H. apply Ok_eq in H as <-. eapply view_withNyms_upd; eassumption.
    - unfold setUpkeepAccounts in H. invs H. apply Ok_eq in H as <-. eapply view_withNyms_upd; eassumption.
    - unfold addContact in H. inv1 H. inv1 H. inv1 H. inv1 H. inv1 H. inv1 H.
      pose proof (owner_ne _ _ _ _ _ V B N E4) as NE.
      destruct (thas _ _); apply Ok_eq in H as <-; unfold view;
        cbn [withContacts dbNyms dbContacts dbAccounts dbMsgs dbOut dbIn dbIds]; f_equal.
      + apply tsel_upd_In. intros i a5 _ W. unfold isContact in W. apply andb_prop in W as [W _]. apply N.eqb_eq in W.
        cbn [cMy]. rewrite W. split; apply neq_false; exact NE.
      + apply tsel_ins_other. apply neq_false. exact NE.
    - unfold removeContact in H. inv1 H. inv1 H. inv1 H. pose proof (owner_ne _ _ _ _ _ V B N E1) as NE.
      apply Ok_eq in H as <-. unfold view. cbn [withContacts dbNyms dbContacts dbAccounts dbMsgs dbOut dbIn dbIds]; f_equal.
      apply tsel_upd_In. intros i a5 _ W. unfold isContact in W. apply andb_prop in W as [W _]. apply N.eqb_eq in W.
      cbn [cMy]. rewrite W. split; apply neq_false; exact NE.
    - unfold addAccount in H. inv1 H. destruct a as [mI cI]. inv1 H. apply Ok_eq in H as <-.
      apply pairIDs_ok in E as [E _]. pose proof (owner_ne _ _ _ _ _ V B N E) as NE.
      unfold view. cbn [withAccounts dbNyms dbContacts dbAccounts dbMsgs dbOut dbIn dbIds]; f_equal.
      apply tsel_ins_other. apply neq_false. exact NE.
    - unfold setAccountTime in H. inv1 H. destruct a as [mI cI]. apply Ok_eq in H as <-.
      apply pairIDs_ok in E as [E _]. pose proof (owner_ne _ _ _ _ _ V B N E) as NE.
      unfold view. cbn [withAccounts dbNyms dbContacts dbAccounts dbMsgs dbOut dbIn dbIds]; f_equal.
      apply tsel_upd_In. intros i r _ W. unfold isAcc in W. apply andb_prop in W as [W _]. apply N.eqb_eq in W.
      cbn [aMy]. rewrite W. split; apply neq_false; exact NE.
    - unfold setAccountLastMsg in H. inv1 H. destruct a as [mI cI]. apply Ok_eq in H as <-.
      apply pairIDs_ok in E as [E _]. pose proof (owner_ne _ _ _ _ _ V B N E) as NE.
      unfold view. cbn [withAccounts dbNyms dbContacts dbAccounts dbMsgs dbOut dbIn dbIds]; f_equal.
      apply tsel_upd_In. intros i r _ W. unfold isAcc in W. apply andb_prop in W as [W _]. apply N.eqb_eq in W.
      cbn [aMy]. rewrite W. split; apply neq_false; exact NE.
    - unfold addMessage in H. inv1 H. inv1 H. inv1 H. inv1 H. apply Ok_eq in H as <-.
      pose proof (owner_ne _ _ _ _ _ V B N E1) as NE.
      unfold view. cbn [withMsgs dbNyms dbContacts dbAccounts dbMsgs dbOut dbIn dbIds]; f_equal.
      apply tsel_ins_other. apply neq_false. exact NE.
    - apply Ok_eq in H as <-. apply view_updMsgs; [reflexivity|]. intros i m I W. apply N.eqb_eq in W as ->.
      destruct (iv_msgs _ _ V) as [O _]. rewrite (tget_intro _ _ _ O I) in N. intros <-.
      apply N. apply nymName_of; assumption.
    - unfold delMessage in H. inv1 H. inv1 H. inv1 H. apply Ok_eq in H as <-.
      pose proof (owner_ne _ _ _ _ _ V B N E0) as NE. apply view_cascadeMsgs; [exact V|exact Q|].
      intros i m _ W. apply andb_prop in W as [_ W]. apply N.eqb_eq in W. congruence.
    - destruct P as [c [t [s [a' [b' G]]]]]. unfold getUndelivered in G. inv1 G. inv1 G.
      destruct (tmin _ _) as [[i' m]|] eqn:TM; [|discriminate]. inv1 G. apply Ok_eq in G. injection G as G _ _ _ _ _. subst i'.
      apply tmin_some in TM as [I W]. cbn [snd] in W. apply andb_prop in W as [W1 W2]. apply N.eqb_eq in W1.
      unfold addOutQueue in H. inv1 H. inv1 H. inv1 H. apply Ok_eq in H as <-.
      rewrite E0 in E3. apply Ok_eq in E3 as <-. pose proof (owner_ne _ _ _ _ _ V B N E0) as NE.
      destruct (iv_msgs _ _ V) as [O _].
      unfold view. cbn [withOut withMsgs dbNyms dbContacts dbAccounts dbMsgs dbOut dbIn dbIds]; f_equal.
      + apply tsel_upd_In. intros j x J X. apply N.eqb_eq in X as ->. rewrite (idsOk_unique _ _ _ _ O J I).
        cbn [setToSend mSelf]. rewrite W1. split; apply neq_false; exact NE.
      + apply tsel_ins_other. apply neq_false. exact NE.
    - apply Ok_eq in H as <-. apply view_updOut; [reflexivity|]. intros i r I W. apply N.eqb_eq in W as ->.
      eapply out_idx_owner; eassumption.
    - unfold removeOutQueue in H. inv1 H. apply Ok_eq in H as <-. rewrite E in N.
      eapply view_remOut; try eassumption. reflexivity.
    - unfold retractOutQueue in H. inv1 H. apply Ok_eq in H as <-. rewrite E in N.
      eapply view_remOut; try eassumption. reflexivity.
    - apply Ok_eq in H as <-. apply view_updOut; [reflexivity|]. intros i r I W. apply N.eqb_eq in W as ->.
      eapply out_idx_owner; eassumption.
    - unfold clearResendOutQueue in H. inv1 H. inv1 H. apply Ok_eq in H as <-.
      pose proof (owner_ne _ _ _ _ _ V B N E0) as NE. apply view_updOut; [reflexivity|].
      intros i r _ W. apply andb_prop in W as [W _]. apply N.eqb_eq in W. congruence.
    - unfold addInQueue in H. inv1 H. destruct a as [mI cI]. apply Ok_eq in H as <-.
      apply pairIDs_ok in E as [E _]. pose proof (owner_ne _ _ _ _ _ V B N E) as NE.
      unfold view. cbn [withIn dbNyms dbContacts dbAccounts dbMsgs dbOut dbIn dbIds]; f_equal.
      apply tsel_ins_other. apply neq_false. exact NE.
    - apply Ok_eq in H as <-. unfold view. cbn [withIn dbNyms dbContacts dbAccounts dbMsgs dbOut dbIn dbIds]; f_equal.
      apply tsel_upd_In. intros i r I W. apply N.eqb_eq in W as ->. cbn [iMy].
      split; apply neq_false; eapply in_idx_owner; eassumption.
    - unfold removeInQueue in H. inv1 H. inv1 H. inv1 H. inv1 H. apply Ok_eq in H as <-.
      pose proof (tget_In _ _ _ E0) as I. pose proof (in_idx_owner _ _ _ _ _ V B I N) as NE.
      destruct (iv_in _ _ V) as [O _].
      unfold view. cbn [withIn withMsgs dbNyms dbContacts dbAccounts dbMsgs dbOut dbIn dbIds]; f_equal.
      + destruct drop; [reflexivity|]. apply tsel_ins_other. apply neq_false. exact NE.
      + apply tsel_tdel_other. intros j r R W. apply N.eqb_eq in W as ->. apply neq_false.
        now rewrite (idsOk_unique _ _ _ _ O R I).
    - apply Ok_eq in H as <-. apply view_delIn. intros i r I W. apply N.eqb_eq in W as ->.
      eapply in_idx_owner; eassumption.
    - unfold addCache in H. inv1 H. inv1 H. inv1 H. inv1 H. destruct a2 as [mI cI]. apply Ok_eq in H as <-.
      apply pairIDs_ok in E2 as [E2 _]. pose proof (owner_ne _ _ _ _ _ V B N E2) as NE.
      unfold view. cbn [withIds dbNyms dbContacts dbAccounts dbMsgs dbOut dbIn dbIds]; f_equal.
      apply tsel_ins_other. apply neq_false. exact NE.
    - unfold removeCache in H. inv1 H. inv1 H. inv1 H. inv1 H. destruct a2 as [mI cI].
      destruct (tmin _ _) as [[e r]|]; [|discriminate]. apply Ok_eq in H as <-.
      apply pairIDs_ok in E2 as [E2 _]. pose proof (owner_ne _ _ _ _ _ V B N E2) as NE.
      unfold view. cbn [withIds dbNyms dbContacts dbAccounts dbMsgs dbOut dbIn dbIds]; f_equal.
      apply tsel_tdel_other. intros i d _ W. apply andb_prop in W as [W _]. unfold isId in W. apply andb_prop in W as [W _].
      apply N.eqb_eq in W. apply neq_false. congruence.
  Qed.
End V.
