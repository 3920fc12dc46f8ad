(* What single operations do to messages and queues, and what reading methods depend on. *)
From Verif Require Import Base Base64Model Base64Proofs IdentityModel IdentityProofs Maps SqlModel SqlProofs
  MsgDBModel MsgDBProofs MsgDBQueue MsgDBView.
From Coq Require Import Sorting.Sorted.
Local Open Scope N_scope.

(* the parts of a message nothing but deletion takes away *)
Definition sameMsg (m m' : msgRow) : Prop :=
  mSelf m' = mSelf m /\ mPeer m' = mPeer m /\ mDir m' = mDir m /\ mFrom m' = mFrom m /\ mTo m' = mTo m /\
  mSubject m' = mSubject m /\ mText m' = mText m /\ mSign m' = mSign m /\ mMin m' = mMin m /\ mMax m' = mMax m.
Lemma sameMsg_refl m : sameMsg m m. Proof. repeat split. Qed.
Definition touchesMsgs (o : dop) : bool :=
  match o with
  | DDelNym _ | DAddMessage _ _ _ _ _ _ _ _ | DReadMessage _ | DDelMessage _ _ | DAddOutQueue _ _ _ _ _ _
  | DRemoveOutQueue _ _ | DRetractOutQueue _ | DRemoveInQueue _ _ _ _ => true
  | _ => false
  end.
Definition touchesOut (o : dop) : bool :=
  match o with
  | DDelNym _ | DDelMessage _ _ | DAddOutQueue _ _ _ _ _ _ | DSetOutQueue _ _ | DRemoveOutQueue _ _
  | DRetractOutQueue _ | DSetResend _ | DClearResend _ => true
  | _ => false
  end.
Definition touchesIn (o : dop) : bool :=
  match o with DDelNym _ | DAddInQueue _ _ _ _ | DSetInQueue _ _ | DRemoveInQueue _ _ _ _ | DDelInQueue _ => true | _ => false end.
Lemma dexec_tables2 U o db db' : dexec U o db = Ok db' ->
  (touchesMsgs o = false -> dbMsgs db' = dbMsgs db) /\
  (touchesOut o = false -> dbOut db' = dbOut db) /\
  (touchesIn o = false -> dbIn db' = dbIn db).
Proof.
  destruct o; cbn [dexec touchesMsgs touchesOut touchesIn]; intros H; try (repeat split; discriminate).
  - unfold addValue in H. invs H. apply Ok_eq in H as <-. auto.
  - unfold addNym in H. inv1 H. inv1 H. inv1 H. inv1 H. inv1 H. destruct (thas _ _); inv1 H; apply Ok_eq in H as <-; auto.
  - unfold setUpkeepAll in H. invs H. apply Ok_eq in H as <-. auto.
  - unfold setUpkeepAccounts in H. invs H. apply Ok_eq in H as <-. auto.
  - unfold addContact in H. inv1 H. inv1 H. inv1 H. inv1 H. inv1 H. inv1 H. destruct (thas _ _); apply Ok_eq in H as <-; auto.
  - unfold removeContact in H. invs H. apply Ok_eq in H as <-. auto.
  - unfold addAccount in H. inv1 H. destruct a as [mI cI]. inv1 H. apply Ok_eq in H as <-. auto.
  - unfold setAccountTime in H. inv1 H. destruct a as [mI cI]. apply Ok_eq in H as <-. auto.
  - unfold setAccountLastMsg in H. inv1 H. destruct a as [mI cI]. apply Ok_eq in H as <-. auto.
  - unfold addMessage in H. inv1 H. inv1 H. inv1 H. inv1 H. apply Ok_eq in H as <-. repeat split; congruence.
  - apply Ok_eq in H as <-. repeat split; congruence.
  - unfold delMessage in H. inv1 H. inv1 H. inv1 H. apply Ok_eq in H as <-. repeat split; congruence.
  - unfold addOutQueue in H. inv1 H. inv1 H. inv1 H. apply Ok_eq in H as <-. repeat split; congruence.
  - apply Ok_eq in H as <-. repeat split; congruence.
  - unfold removeOutQueue in H. inv1 H. apply Ok_eq in H as <-. repeat split; congruence.
  - unfold retractOutQueue in H. inv1 H. apply Ok_eq in H as <-. repeat split; congruence.
  - apply Ok_eq in H as <-. repeat split; congruence.
  - unfold clearResendOutQueue in H. inv1 H. inv1 H. apply Ok_eq in H as <-. repeat split; congruence.
  - unfold addInQueue in H. inv1 H. destruct a as [mI cI]. apply Ok_eq in H as <-. repeat split; congruence.
  - apply Ok_eq in H as <-. repeat split; congruence.
  - unfold removeInQueue in H. inv1 H. inv1 H. inv1 H. inv1 H. apply Ok_eq in H as <-. repeat split; congruence.
  - apply Ok_eq in H as <-. repeat split; congruence.
  - unfold addCache in H. inv1 H. inv1 H. inv1 H. inv1 H. destruct a2. apply Ok_eq in H as <-. auto.
  - unfold removeCache in H. inv1 H. inv1 H. inv1 H. inv1 H. destruct a2. destruct (tmin _ _) as [[e r]|]; [|discriminate].
    apply Ok_eq in H as <-. auto.
Qed.

Lemma In_upd_at {A} (p : N -> A -> bool) (f : A -> A) t i a : In (i, a) t -> In (i, if p i a then f a else a) (tupd p f t).
Proof. intros I. apply In_tupd. exists (i, a). cbn [fst snd]. destruct (p i a); auto. Qed.
(* the reasons for which a message may go *)
Definition userDeleted (db : msgdb) (i : N) (m : msgRow) (o : dop) : Prop :=
  exists my, qNymUID my db = Ok (mSelf m) /\ (o = DDelMessage my i \/ o = DDelNym my).
(* delivery of the message's out-queue entry is recorded *)
Definition deliveredBy (db : msgdb) (i : N) (o : dop) : Prop :=
  exists idx d e, o = DRemoveOutQueue idx d /\ tget idx (dbOut db) = Some e /\ oMsgID e = i.
Lemma msg_step U o db db' i m : dexec U o db = Ok db' -> In (i, m) (dbMsgs db) ->
  userDeleted db i m o \/
  exists m', In (i, m') (dbMsgs db') /\ sameMsg m m' /\ (mSent m = true -> mSent m' = true) /\
             (mSent m' = true -> mSent m = true \/ deliveredBy db i o).
Proof.
  intros H I. destruct (touchesMsgs o) eqn:T.
  2:{ right. exists m. destruct (dexec_tables2 _ _ _ _ H) as [A _]. rewrite (A T). auto using sameMsg_refl. }
  destruct o; try discriminate T; cbn [dexec] in H.
  - unfold delNym in H. inv1 H. inv1 H. destruct a0. inv1 H. inv1 H. inv1 H. apply Ok_eq in H as <-.
    destruct (N.eq_dec (mSelf m) a1) as [Y|NE].
    + left. exists mappedID. rewrite Y. auto.
    + right. exists m. cbn [cascadeNym cascadeMsgs withOut withMsgs dbMsgs]. rewrite In_tdel. cbn [fst snd].
      rewrite (proj2 (N.eqb_neq _ _) NE). auto using sameMsg_refl.
  - right. exists m. unfold addMessage in H. inv1 H. inv1 H. inv1 H. inv1 H. apply Ok_eq in H as <-.
    cbn [withMsgs dbMsgs]. rewrite In_tins. auto using sameMsg_refl.
  - right. apply Ok_eq in H as <-. cbn [withMsgs dbMsgs].
    eexists. split; [apply In_upd_at; exact I|]. cbv beta.
    destruct (i =? msgNum); (split; [repeat split|cbn; auto]).
  - unfold delMessage in H. inv1 H. inv1 H. inv1 H. apply Ok_eq in H as <-.
    destruct ((i =? msgNum) && (mSelf m =? a0)) eqn:Q.
    + apply andb_prop in Q as [Q1 Q2]. apply N.eqb_eq in Q1 as ->. apply N.eqb_eq in Q2 as <-. left. exists myID. auto.
    + right. exists m. cbn [cascadeMsgs withOut withMsgs dbMsgs]. rewrite In_tdel. cbn [fst snd]. rewrite Q.
      auto using sameMsg_refl.
  - right. unfold addOutQueue in H. inv1 H. inv1 H. inv1 H. apply Ok_eq in H as <-. cbn [withOut withMsgs dbMsgs].
    eexists. split; [apply In_upd_at; exact I|]. cbv beta.
    destruct (i =? msgID); (split; [repeat split|cbn; auto]).
  - right. unfold removeOutQueue in H. inv1 H. apply Ok_eq in H as <-. cbn [withOut withMsgs dbMsgs].
    eexists. split; [apply In_upd_at; exact I|]. cbv beta.
    destruct (N.eqb_spec i (oMsgID a)) as [->|]; (split; [repeat split|split; [cbn; auto|]]).
    + intros _. right. exists oqIdx, date, a. auto.
    + auto.
  - right. unfold retractOutQueue in H. inv1 H. apply Ok_eq in H as <-. cbn [withOut withMsgs dbMsgs].
    eexists. split; [apply In_upd_at; exact I|]. cbv beta.
    destruct (i =? oMsgID a); (split; [repeat split|cbn; auto]).
  - right. exists m. unfold removeInQueue in H. inv1 H. inv1 H. inv1 H. inv1 H. apply Ok_eq in H as <-.
    cbn [withIn withMsgs dbMsgs]. destruct drop; [|rewrite In_tins]; auto using sameMsg_refl.
Qed.

(* How the out-queue changes in one operation: entries go, keep their place, or are
   appended. *)
Definition outStep (o : dop) (t t' : tbl oqRow) : Prop :=
  match o with
  | DAddOutQueue _ i msg nym a b => exists m, t' = t ++ [(nextId t, mkOq m i msg nym a b false false)]
  | DSetOutQueue idx msg => t' = map (fun r => if fst r =? idx then (fst r, mkOq (oSelf (snd r)) (oMsgID (snd r)) msg
        (oNym (snd r)) (oMin (snd r)) (oMax (snd r)) true (oResend (snd r))) else r) t
  | DSetResend idx => t' = map (fun r => if fst r =? idx then (fst r, setResend true (snd r)) else r) t
  | DClearResend _ => exists u, t' = map (fun r => if oSelf (snd r) =? u then (fst r, setResend false (snd r)) else r) t
  | DRemoveOutQueue idx _ | DRetractOutQueue idx => t' = filter (fun r => negb (fst r =? idx)) t
  | DDelMessage _ i => exists keep, t' = filter keep t
  | DDelNym _ => exists keep, t' = filter keep t
  | _ => t' = t
  end.
Lemma filter_filter {A} (p q : A -> bool) l : filter p (filter q l) = filter (fun x => q x && p x) l.
Proof.
  induction l as [|x l IH]; [reflexivity|]. cbn [filter]. destruct (q x) eqn:Q; cbn [filter andb]; [|exact IH].
  destruct (p x); rewrite IH; reflexivity.
Qed.
Lemma out_step U o db db' : dexec U o db = Ok db' -> outStep o (dbOut db) (dbOut db').
Proof.
  intros H. destruct (touchesOut o) eqn:T.
  2:{ destruct (dexec_tables2 _ _ _ _ H) as [_ [A _]]. rewrite (A T). destruct o; try discriminate T; reflexivity. }
  destruct o; try discriminate T; cbn [dexec outStep] in *.
  - unfold delNym in H. inv1 H. inv1 H. destruct a0. inv1 H. inv1 H. inv1 H. apply Ok_eq in H as <-.
    cbn [cascadeNym cascadeMsgs withOut withMsgs dbOut]. unfold tdel. rewrite filter_filter. eexists. reflexivity.
  - unfold delMessage in H. inv1 H. inv1 H. inv1 H. apply Ok_eq in H as <-. eexists. reflexivity.
  - unfold addOutQueue in H. inv1 H. inv1 H. inv1 H. apply Ok_eq in H as <-. eexists. reflexivity.
  - apply Ok_eq in H as <-. reflexivity.
  - unfold removeOutQueue in H. inv1 H. apply Ok_eq in H as <-. reflexivity.
  - unfold retractOutQueue in H. inv1 H. apply Ok_eq in H as <-. reflexivity.
  - apply Ok_eq in H as <-. reflexivity.
  - unfold clearResendOutQueue in H. inv1 H. inv1 H. apply Ok_eq in H as <-. exists a0. cbn [withOut dbOut]. unfold tupd.
    apply map_ext_in. intros [i r] I. cbn [fst snd]. destruct (oSelf r =? a0); [|reflexivity]. cbn [andb].
    destruct (oResend r) eqn:R; [reflexivity|]. destruct r; cbn in *. subst. reflexivity.
Qed.
Definition inStep (o : dop) (t t' : tbl iqRow) : Prop :=
  match o with
  | DAddInQueue _ _ d x => exists m c, t' = t ++ [(nextId t, mkIq m c d x true)]
  | DSetInQueue idx x => t' = map (fun r => if fst r =? idx then (fst r, mkIq (iMy (snd r)) (iContact (snd r)) (iDate (snd r)) x false) else r) t
  | DRemoveInQueue idx _ _ _ | DDelInQueue idx => t' = filter (fun r => negb (fst r =? idx)) t
  | DDelNym _ => exists keep, t' = filter keep t
  | _ => t' = t
  end.
Lemma in_step U o db db' : dexec U o db = Ok db' -> inStep o (dbIn db) (dbIn db').
Proof.
  intros H. destruct (touchesIn o) eqn:T.
  2:{ destruct (dexec_tables2 _ _ _ _ H) as [_ [_ A]]. rewrite (A T). destruct o; try discriminate T; reflexivity. }
  destruct o; try discriminate T; cbn [dexec inStep] in *.
  - unfold delNym in H. inv1 H. inv1 H. destruct a0. inv1 H. inv1 H. inv1 H. apply Ok_eq in H as <-.
    eexists. reflexivity.
  - unfold addInQueue in H. inv1 H. destruct a as [mI cI]. apply Ok_eq in H as <-. do 2 eexists. reflexivity.
  - apply Ok_eq in H as <-. reflexivity.
  - unfold removeInQueue in H. inv1 H. inv1 H. inv1 H. inv1 H. apply Ok_eq in H as <-. reflexivity.
  - apply Ok_eq in H as <-. reflexivity.
Qed.

(* the first element in list order with a property *)
Lemma find_first {A} (p : A -> bool) l x : find p l = Some x ->
  exists pre post, l = pre ++ x :: post /\ p x = true /\ forall y, In y pre -> p y = false.
Proof.
  induction l as [|a l IH]; [discriminate|]. cbn [find]. destruct (p a) eqn:P; intros H.
  - injection H as ->. exists [], l. repeat split; [exact P|intros y []].
  - destruct (IH H) as [pre [post [-> [Q N]]]]. exists (a :: pre), post. repeat split; [exact Q|].
    intros y [<-|Y]; [exact P|apply N; exact Y].
Qed.

(* ---------------- reading depends on the own view only ---------------- *)
Lemma tmin_tsel {A} p q (t : tbl A) : (forall i a, p i a = true -> q i a = true) -> tmin p (tsel q t) = tmin p t.
Proof.
  intros H. unfold tsel. induction t as [|[i a] t IH]; [reflexivity|]. cbn [filter fst snd].
  destruct (q i a) eqn:Q; cbn [tmin fst snd]; rewrite IH; [reflexivity|].
  destruct (p i a) eqn:P; [rewrite (H _ _ P) in Q; discriminate|reflexivity].
Qed.
Lemma tmin_view {A} p q (t t' : tbl A) : tsel q t' = tsel q t -> (forall i a, p i a = true -> q i a = true) -> tmin p t' = tmin p t.
Proof. intros E H. rewrite <- (tmin_tsel p q t'), <- (tmin_tsel p q t), E by exact H. reflexivity. Qed.
Lemma tsel_view {A} p q (t t' : tbl A) : tsel q t' = tsel q t -> (forall i a, p i a = true -> q i a = true) -> tsel p t' = tsel p t.
Proof.
  intros E H. assert (X : forall l : tbl A, tsel p l = tsel p (tsel q l)).
  { intros l. unfold tsel. rewrite filter_filter. apply filter_ext. intros [i a]. cbn [fst snd].
    destruct (p i a) eqn:P; [rewrite (H _ _ P); reflexivity|rewrite andb_false_r; reflexivity]. }
  rewrite (X t'), (X t), E. reflexivity.
Qed.
Section Reads.
  Variable U : Unicode.
  Variables (db db' : msgdb) (b : bytes) (u : N).
  Hypothesis V : Inv U db.
  Hypothesis V' : Inv U db'.
  Hypothesis Q : qNymUID b db = Ok u.
  Hypothesis Q' : qNymUID b db' = Ok u.
  Hypothesis W : view u db' = view u db.
  Ltac split_and H := apply andb_prop in H; let A := fresh H in let B := fresh H in destruct H as [A B].
  Lemma view_nym : exists n, nMapped n = b /\ tmin (fun _ n => beq (nMapped n) b) (dbNyms db) = Some (u, n)
    /\ tmin (fun _ n => beq (nMapped n) b) (dbNyms db') = Some (u, n).
  Proof using V V' Q Q' W.
    unfold qNymUID in Q, Q'. destruct (tmin _ (dbNyms db)) as [[i n]|] eqn:T; [|discriminate].
    destruct (tmin _ (dbNyms db')) as [[i' n']|] eqn:T'; [|discriminate]. injection Q as ->. injection Q' as ->.
    apply tmin_some in T as [I P]. apply tmin_some in T' as [I' P']. cbn [snd] in P, P'. apply beq_spec in P.
    assert (J : In (u, n) (tsel (fun i _ => i =? u) (dbNyms db))) by (apply In_tsel; cbn [fst]; rewrite N.eqb_refl; auto).
    assert (J' : In (u, n') (tsel (fun i _ => i =? u) (dbNyms db'))) by (apply In_tsel; cbn [fst]; rewrite N.eqb_refl; auto).
    pose proof (f_equal vNym W) as X. cbn [vNym view] in X. rewrite X in J'. apply In_tsel in J' as [J' _].
    destruct (iv_nyms _ _ V) as [O _]. rewrite (idsOk_unique _ _ _ _ O J' I). eauto.
  Qed.
  Lemma read_contact my c : my = u -> tmin (fun _ r => isContact my c r) (dbContacts db') = tmin (fun _ r => isContact my c r) (dbContacts db).
  Proof using W.
    intros ->. apply (tmin_view _ (fun _ r => cMy r =? u)); [exact (f_equal vContacts W)|].
    intros i a P. unfold isContact in P. apply andb_prop in P as [P _]. exact P.
  Qed.
  Lemma read_qContactMapped i : qContactMapped u i db' = qContactMapped u i db.
  Proof using W.
    unfold qContactMapped.
    rewrite (tmin_view _ (fun _ r => cMy r =? u) (dbContacts db) (dbContacts db')); [reflexivity|exact (f_equal vContacts W)|].
    intros k a P. apply andb_prop in P as [P _]. exact P.
  Qed.
  Lemma read_getNym : getNym U b db' = getNym U b db.
  Proof using V V' Q Q' W. unfold getNym. destruct view_nym as [n [_ [-> ->]]]. reflexivity. Qed.
  Lemma read_getContact c : getContact U b c db' = getContact U b c db.
  Proof using Q Q' W. unfold getContact. rewrite Q, Q'. cbn [rbind]. rewrite (read_contact u c eq_refl). reflexivity. Qed.
  Lemma read_getContacts bl : getContacts U b bl db' = getContacts U b bl db.
  Proof using Q Q' W.
    unfold getContacts. rewrite Q, Q'. cbn [rbind].
    rewrite (tsel_view _ (fun _ r => cMy r =? u) (dbContacts db) (dbContacts db')); [reflexivity|exact (f_equal vContacts W)|].
    intros k a P. apply andb_prop in P as [P _]. exact P.
  Qed.
  Lemma read_pairIDs c : pairIDs U b c db' = pairIDs U b c db.
  Proof using Q Q' W. unfold pairIDs, qContactUID. rewrite Q, Q'. cbn [rbind]. rewrite (read_contact u c eq_refl). reflexivity. Qed.
  Lemma pairIDs_u c m k : pairIDs U b c db = Ok (m, k) -> m = u.
  Proof using Q. unfold pairIDs. rewrite Q. intros H. inv1 H. inv1 H. inv1 H. inv1 H. congruence. Qed.
  Lemma read_acc m k : m = u -> tmin (fun _ a => isAcc m k a) (dbAccounts db') = tmin (fun _ a => isAcc m k a) (dbAccounts db).
  Proof using W.
    intros ->. apply (tmin_view _ (fun _ r => aMy r =? u)); [exact (f_equal vAccounts W)|].
    intros i a P. unfold isAcc in P. apply andb_prop in P as [P _]. exact P.
  Qed.
  Lemma read_getAccount c : getAccount U b c db' = getAccount U b c db.
  Proof using Q Q' W.
    unfold getAccount. rewrite read_pairIDs. destruct (pairIDs U b c db) as [[m k]| |] eqn:E; cbn [rbind]; try reflexivity.
    rewrite (read_acc m k (pairIDs_u _ _ _ E)). reflexivity.
  Qed.
  Lemma read_getAccountTime c : getAccountTime U b c db' = getAccountTime U b c db.
  Proof using Q Q' W.
    unfold getAccountTime. rewrite read_pairIDs. destruct (pairIDs U b c db) as [[m k]| |] eqn:E; cbn [rbind]; try reflexivity.
    rewrite (read_acc m k (pairIDs_u _ _ _ E)). reflexivity.
  Qed.
  Lemma read_names l : contactNames u l db' = contactNames u l db.
  Proof using W. induction l as [|x l IH]; [reflexivity|]. cbn [contactNames]. rewrite read_qContactMapped, IH. reflexivity. Qed.
  Lemma read_getAccounts : getAccounts U b db' = getAccounts U b db.
  Proof using Q Q' W.
    unfold getAccounts. rewrite Q, Q'. cbn [rbind]. pose proof (f_equal vAccounts W) as X. cbn [vAccounts view] in X. rewrite X.
    rewrite read_names. reflexivity.
  Qed.
  Lemma read_getCache c : getCache U b c db' = getCache U b c db.
  Proof using Q Q' W.
    unfold getCache. rewrite read_pairIDs. destruct (pairIDs U b c db) as [[m k]| |] eqn:E; cbn [rbind]; try reflexivity.
    rewrite (tsel_view _ (fun _ d => dMy d =? u) (dbIds db) (dbIds db')); [reflexivity|exact (f_equal vIds W)|].
    intros i a P. unfold isId in P. apply andb_prop in P as [P _]. rewrite (pairIDs_u _ _ _ E) in P. exact P.
  Qed.
  Lemma read_getUpkeep sel : getUpkeep U sel b db' = getUpkeep U sel b db.
  Proof using V V' Q Q' W. unfold getUpkeep. destruct view_nym as [n [_ [-> ->]]]. reflexivity. Qed.
  Lemma read_getMsgIDs : getMsgIDs U b db' = getMsgIDs U b db.
  Proof using Q Q' W.
    unfold getMsgIDs. rewrite Q, Q'. cbn [rbind]. pose proof (f_equal vMsgs W) as X. cbn [vMsgs view] in X. rewrite X. reflexivity.
  Qed.
  Lemma read_getUndelivered : getUndelivered U b db' = getUndelivered U b db.
  Proof using Q Q' W.
    unfold getUndelivered. rewrite Q, Q'. cbn [rbind].
    rewrite (tmin_view _ (fun _ m => mSelf m =? u) (dbMsgs db) (dbMsgs db')); [|exact (f_equal vMsgs W)|].
    - destruct (need _ _); cbn [rbind]; try reflexivity. destruct (tmin _ _) as [[i m]|]; [|reflexivity].
      rewrite read_qContactMapped. reflexivity.
    - intros i a P. apply andb_prop in P as [P _]. exact P.
  Qed.
  Lemma read_getOutQueue : getOutQueue U b db' = getOutQueue U b db.
  Proof using Q Q' W.
    unfold getOutQueue. rewrite Q, Q'. cbn [rbind].
    rewrite (tmin_view _ (fun _ m => oSelf m =? u) (dbOut db) (dbOut db')); [reflexivity|exact (f_equal vOut W)|].
    intros i a P. apply andb_prop in P as [P _]. exact P.
  Qed.
  Lemma read_getMessage i r : getMessage U b i db = Ok r -> getMessage U b i db' = Ok r.
  Proof using V V' Q Q' W.
    unfold getMessage. intros H. inv1 H. rewrite E. cbn [need rbind]. destruct (tget i (dbMsgs db)) as [m|] eqn:T; [|discriminate].
    inv1 H. inv1 H. apply beq_spec in E1. subst a0. apply tget_In in T.
    assert (S : mSelf m = u).
    { unfold qNymMapped in E0. destruct (tget (mSelf m) (dbNyms db)) as [n|] eqn:TN; [|discriminate]. apply Ok_eq in E0.
      apply tget_In in TN. pose proof (qNymUID_intro U _ _ _ (iv_nyms _ _ V) TN) as X. rewrite E0, Q in X. apply Ok_eq in X. congruence. }
    assert (J : In (i, m) (tsel (fun _ m => mSelf m =? u) (dbMsgs db))) by (apply In_tsel; cbn [snd]; rewrite S, N.eqb_refl; auto).
    pose proof (f_equal vMsgs W) as X. cbn [vMsgs view] in X. rewrite <- X in J. apply In_tsel in J as [J _].
    destruct (iv_msgs _ _ V') as [O' _]. rewrite (tget_intro _ _ _ O' J).
    assert (N' : qNymMapped (mSelf m) db' = Ok b).
    { rewrite S. unfold qNymMapped. apply qNymUID_ok in Q' as [n' [I' <-]].
      rewrite (tget_intro _ _ _ (proj1 (iv_nyms _ _ V')) I'). reflexivity. }
    rewrite N'. cbn [rbind]. rewrite beq_refl. cbn [need rbind]. rewrite S in *. rewrite read_qContactMapped.
    inv1 H. rewrite E1. cbn [rbind]. rewrite read_getNym. inv1 H. rewrite E2. cbn [rbind]. rewrite read_getContact. exact H.
  Qed.
End Reads.

(* ---------------- deleting and creating users ---------------- *)
Definition emptyView : uview := mkView [] [] [] [] [] [] [].
Lemma tsel_gone {A} p q (t : tbl A) : (forall i a, p i a = true -> q i a = true) -> tsel p (tdel q t) = [].
Proof.
  intros H. apply tsel_none. intros i a I. apply In_tdel in I as [_ I]. cbn [fst snd] in I.
  destruct (p i a) eqn:P; [rewrite (H _ _ P) in I; discriminate|reflexivity].
Qed.
Lemma view_delNym U my db db' u : qNymUID my db = Ok u -> delNym U my db = Ok db' -> view u db' = emptyView.
Proof.
  intros Q H. unfold delNym in H. inv1 H. inv1 H. destruct a0. inv1 H. inv1 H. inv1 H. apply Ok_eq in H as <-.
  rewrite Q in E2. apply Ok_eq in E2 as <-. unfold view, emptyView. cbn [cascadeNym cascadeMsgs withOut withMsgs dbNyms dbContacts dbAccounts dbMsgs dbOut dbIn dbIds].
  f_equal; apply tsel_gone; auto.
Qed.
Lemma view_unused U db v : Inv U db -> (forall n, ~ In (v, n) (dbNyms db)) -> view v db = emptyView.
Proof.
  intros I N. assert (K : ~ In v (nkeys (dbNyms db))).
  { unfold nkeys. intros X. apply in_map_iff in X as [[j n] [E X]]. cbn [fst] in E. subst. eapply N; exact X. }
  unfold view, emptyView. f_equal; apply tsel_none; intros i a A; apply N.eqb_neq; intros E; subst.
  - eapply N; exact A.
  - apply K. destruct (iv_contacts _ _ I) as [_ [F _]]. rewrite Forall_forall in F. apply (F _ A).
  - apply K. destruct (iv_accs _ _ I) as [_ [F _]]. rewrite Forall_forall in F. apply (F _ A).
  - apply K. destruct (iv_msgs _ _ I) as [_ F]. rewrite Forall_forall in F. apply (F _ A).
  - apply K. destruct (iv_out _ _ I) as [_ F]. rewrite Forall_forall in F. apply (F _ A).
  - apply K. destruct (iv_in _ _ I) as [_ F]. rewrite Forall_forall in F. apply (F _ A).
  - apply K. destruct (iv_ids _ _ I) as [_ F]. rewrite Forall_forall in F. apply (F _ A).
Qed.
