(* Properties of ctrlengine: sending (C35, C84). *)
From Verif Require Import Base Base64Model CodecModel IdentityModel IdentityProofs SqlModel SqlProofs Maps
  MsgDBModel MsgDBProofs MsgDBQueue MsgDBView MsgDBSpec MsgDBSteps PropsMsgDB CryptoModel MixModel MixClientModel CtrlModel CtrlProofs.
From Coq Require Import Sorting.Sorted.
Local Open Scope N_scope.

(* ------------------------------------------------------------------ *)
(* C35.  The log is the list of the messages that the mix took, in order.  Between the runs of msgSend the user may do
   anything except touch the out-queue, which has no other user interface. *)
Inductive act := AUser (o : dop) | ASend (my : bytes) (e : sendEvs).
Definition ostep (U : Unicode) (s : list N * msgdb) (a : act) : list N * msgdb :=
  match a with
  | AUser o => (fst s, dstep U (snd s) o)
  | ASend my e => let '(h, db, _) := msgSend U my e (snd s) in (fst s ++ h, db)
  end.
Definition orun (U : Unicode) (acts : list act) (s : list N * msgdb) : list N * msgdb := fold_left (ostep U) acts s.
Definition userOp (o : dop) : Prop :=
  match o with
  | DAddOutQueue _ _ _ _ _ _ | DSetOutQueue _ _ | DRemoveOutQueue _ _ | DRetractOutQueue _ | DSetResend _ | DClearResend _ => False
  | _ => True
  end.
(* the user does not delete message i or a whole identity *)
Definition spares (i : N) (a : act) : Prop :=
  match a with AUser o => userOp o /\ match o with DDelMessage _ j => j <> i | DDelNym _ => False | _ => True end | ASend _ _ => True end.
(* the message as submitted *)
Definition submitted (db : msgdb) (i : N) (m : msgRow) : Prop := In (i, m) (dbMsgs db) /\ mDir m = true /\ mSent m = false.
(* helper programs give no empty results *)
Definition helperOk (clean : bool) (a : act) : Prop := match a with AUser o => userOp o | ASend _ e => evsOk clean e end.

Lemma userOp_permitted U db o : userOp o -> permitted U db o.
Proof. destruct o; cbn; tauto. Qed.
Lemma userOp_delivered db i o : userOp o -> ~ deliveredBy db i o.
Proof. intros P (a & b & c & -> & _). exact P. Qed.
Lemma ostep_inv (U : Unicode) (Pr : list N -> msgdb -> Prop) (g : act -> Prop) :
  (forall L db o db', Pr L db -> g (AUser o) -> dexec U o db = Ok db' -> Pr L db') ->
  (forall L db my e h db' d, Pr L db -> g (ASend my e) -> msgSend U my e db = (h, db', d) -> Pr (L ++ h) db') ->
  forall acts L db, Pr L db -> Forall g acts -> Pr (fst (orun U acts (L, db))) (snd (orun U acts (L, db))).
Proof.
  intros H1 H2. induction acts as [|a acts IH]; intros L db P F; [exact P|]. inversion_clear F as [|? ? G F']. unfold orun. cbn [fold_left]. fold (orun U acts (ostep U (L, db) a)).
  destruct a as [o|my e]; cbn [ostep fst snd].
  - apply IH; [|exact F']. unfold dstep. destruct (dexec U o db) as [db'| |] eqn:E; [eapply H1; eassumption|exact P|exact P].
  - destruct (msgSend U my e db) as [[h db'] d] eqn:E. apply IH; [eapply H2; eassumption|exact F'].
Qed.

(* Nothing is lost: whatever interruptions and failures occur, the message is unchanged and was taken by the mix, or still waits or
   is queued (with one entry of its owner). *)
Theorem C35_not_lost : forall U acts db i m, history U db -> submitted db i m -> Forall (spares i) acts ->
  let '(L, db') := orun U acts ([], db) in
  exists m', In (i, m') (dbMsgs db') /\ sameMsg m m' /\ (In i L \/ waiting db' i m' \/ queued db' i m').
Proof.
  intros U acts db i m H (I & D & S) F. pose proof (ostep_inv U (kept U i m) (spares i)) as X.
  assert (K : kept U i m [] db) by (split; [exact H|]; exists m; split; [exact I|]; split; [apply sameMsg_refl|congruence]).
  specialize (X). destruct (orun U acts ([], db)) as [L db'] eqn:R.
  assert (Y : kept U i m L db').
  { replace L with (fst (orun U acts ([], db))) by (rewrite R; reflexivity). replace db' with (snd (orun U acts ([], db))) by (rewrite R; reflexivity). apply X; [| |exact K|exact F].
    - intros L1 db1 o db2 K1 [P N] E. apply (kept_op U i m L1 L1 db1 o); [exact K1|apply userOp_permitted; exact P|exact N|exact E|apply incl_refl|].
      intros Z. elim (userOp_delivered _ _ _ P Z).
    - intros. eapply kept_msgSend; eassumption. }
  destruct Y as (H' & m' & I' & S' & K'). exists m'. split; [exact I'|]. split; [exact S'|].
  assert (D' : mDir m' = true) by (unfold sameMsg in S'; intuition congruence).
  destruct (C26_one_state_partial U db' i m' H' I' D') as [[A _]|[[_ [A _]]|[_ [_ (A & B & _)]]]]; [auto|auto|]. left. exact (K' B).
Qed.

(* the out-queue holds no empty message *)
Definition outFull (U : Unicode) (L : list N) (db : msgdb) : Prop := history U db /\ forall i o, In (i, o) (dbOut db) -> oMsg o <> [].
Lemma outFull_op U L db o db' : outFull U L db -> quiet o \/ userOp o -> permitted U db o -> dexec U o db = Ok db' -> outFull U L db'.
Proof.
  intros [H F] Q P E. split; [eapply history_dexec; eassumption|]. intros i r J.
  destruct o; cbn [quiet userOp] in Q; try (destruct (dexec_tables2 _ _ _ _ E) as (_ & T & _); rewrite (T eq_refl) in J; exact (F _ _ J)); cbn [dexec] in E.
  - unfold delNym in E. inv1 E. inv1 E. destruct a0 as [un fn]. inv1 E. inv1 E. inv1 E. apply Ok_eq in E. subst db'. cbn in J. repeat (apply filter_In in J as [J _]). exact (F _ _ J).
  - unfold delMessage in E. inv1 E. inv1 E. inv1 E. apply Ok_eq in E. subst db'. cbn in J. repeat (apply filter_In in J as [J _]). exact (F _ _ J).
  - destruct Q as [Q|[]]. unfold addOutQueue in E. inv1 E. inv1 E. inv1 E. apply Ok_eq in E. subst db'. cbn [withOut dbOut] in J. apply In_tins in J as [J|J]; [exact (F _ _ J)|]. injection J as -> ->. exact Q.
  - destruct Q as [Q|[]]. unfold setOutQueue in E. apply Ok_eq in E. subst db'. cbn [withOut dbOut] in J. apply In_tupd in J as [[j r0] [J X]]. cbn [fst snd] in X. destruct (j =? _); injection X as -> ->; [exact Q|exact (F _ _ J)].
  - destruct Q as [[]|[]].
  - unfold retractOutQueue in E. inv1 E. apply Ok_eq in E. subst db'. cbn [withOut withMsgs dbOut] in J. apply In_tdel in J as [J _]. exact (F _ _ J).
  - unfold setResendOutQueue in E. apply Ok_eq in E. subst db'. cbn [withOut dbOut] in J. apply In_tupd in J as [[j r0] [J X]]. cbn [fst snd] in X. destruct (j =? _); injection X as -> ->; exact (F _ _ J).
  - unfold clearResendOutQueue in E. inv1 E. inv1 E. apply Ok_eq in E. subst db'. cbn [withOut dbOut] in J. apply In_tupd in J as [[j r0] [J X]]. cbn [fst snd] in X. destruct (_ && _); injection X as -> ->; exact (F _ _ J).
Qed.
Lemma outFull_rem U L db i t db' : outFull U L db -> dexec U (DRemoveOutQueue i t) db = Ok db' -> outFull U L db'.
Proof.
  intros [H F] E. split; [exact (history_dexec U db (DRemoveOutQueue i t) db' H I E)|]. intros j r J. cbn [dexec] in E. unfold removeOutQueue in E. inv1 E. apply Ok_eq in E. subst db'.
  cbn [withOut withMsgs dbOut] in J. apply In_tdel in J as [J _]. exact (F _ _ J).
Qed.
Lemma outFull_run U acts L db : outFull U L db -> Forall (helperOk false) acts -> outFull U (fst (orun U acts (L, db))) (snd (orun U acts (L, db))).
Proof.
  revert L db. intros L db K F. apply (ostep_inv U (outFull U) (helperOk false)); [| |exact K|exact F]; clear.
  - intros L db o db' K P E. eapply outFull_op; [exact K|right; exact P|apply userOp_permitted; exact P|exact E].
  - intros L db my e h db' d K P E. apply (msgSend_pres U (outFull U) false) with (my := my) (e := e) (db := db) (d := d); try assumption.
    + intros L0 db0 [X _]. exact X.
    + intros. eapply outFull_op; eauto.
    + intros. destruct (outFull_rem U L0 db0 i t db'0) as [X Y]; [assumption|assumption|]. split; assumption.
    + intros _ L0 db0 i o [X Y] _. split; assumption.
Qed.

(* Everything is handed over in the end: after any schedule of user actions, interrupted and failed runs, a run in which nothing fails
   hands over every message of the user that is not sent yet. *)
Theorem C35_delivered : forall U acts my u, Forall (helperOk false) acts -> let '(L, db) := orun U acts ([], emptyDB) in
  mapped U my = true -> qNymUID my db = Ok u -> exists n, forall e,
  Forall goodO (seOld e) -> Forall goodE (seEnc e) -> Forall goodO (seNew e) ->
  (n <= length (seOld e))%nat -> (n <= length (seEnc e))%nat -> (n <= length (seNew e))%nat ->
  exists h db', msgSend U my e db = (h, db', true) /\
    forall i m, submitted db i m -> mSelf m = u -> In i h /\ exists m', In (i, m') (dbMsgs db') /\ sameMsg m m' /\ sent db' i m'.
Proof.
  intros U acts my u F. destruct (orun U acts ([], emptyDB)) as [L db] eqn:R. intros M Q.
  assert (OF : outFull U L db).
  { replace L with (fst (orun U acts ([], emptyDB))) by (rewrite R; reflexivity). replace db with (snd (orun U acts ([], emptyDB))) by (rewrite R; reflexivity).
    apply outFull_run; [|exact F]. split; [apply h_new|intros i o []]. }
  destruct OF as [H OF].
  set (db1 := withOut (tupd (fun _ o => (oSelf o =? u) && oResend o) (setResend false) (dbOut db)) db).
  assert (E1 : dexec U (DClearResend my) db = Ok db1) by (cbn [dexec]; unfold clearResendOutQueue; rewrite M, Q; reflexivity).
  assert (R1 : ready U my u db1).
  { constructor; [exact (history_dexec U db (DClearResend my) db1 H I E1)|exact M|rewrite <- Q; apply qNymUID_nyms; reflexivity|].
    intros i o J S. cbn [db1 withOut dbOut] in J. apply In_tupd in J as [[j r0] [J X]]. cbn [fst snd] in X. destruct ((oSelf r0 =? u) && oResend r0) eqn:Z; injection X as -> ->.
    - split; [exact (OF _ _ J)|reflexivity].
    - split; [exact (OF _ _ J)|]. apply N.eqb_eq in S. rewrite S in Z. exact Z. }
  exists (length (filter (own u) (dbOut db)) + length (filter (waits u) (dbMsgs db)))%nat. intros e G1 G2 G3 N1 N2 N3.
  assert (O1 : length (filter (own u) (dbOut db1)) = length (filter (own u) (dbOut db))).
  { cbn [db1 withOut dbOut]. unfold tupd. apply filter_map_same. intros [j o]. cbn [fst snd]. destruct (_ && _); reflexivity. }
  destruct (procOut_good U my u (seOld e) db1 R1 G1) as (h1 & db2 & E2 & R2 & O2 & W2); [lia|].
  assert (W1 : length (filter (waits u) (dbMsgs db1)) = length (filter (waits u) (dbMsgs db))) by reflexivity.
  destruct (encLoop_good U my u (seEnc e) db2 R2 G2) as (db3 & E3 & R3 & W3 & O3); [lia|]. rewrite O2 in O3. cbn [length] in O3.
  destruct (procOut_good U my u (seNew e) db3 R3 G3) as (h2 & db4 & E4 & R4 & O4 & W4); [lia|].
  assert (E : msgSend U my e db = (h1 ++ h2, db4, true)).
  { unfold msgSend. rewrite E1, E2. cbn [negb]. rewrite E3. cbn [negb]. rewrite E4. reflexivity. }
  exists (h1 ++ h2), db4. split; [exact E|]. intros i m (I & D & S) Us.
  assert (K : kept U i m [] db) by (split; [exact H|]; exists m; split; [exact I|]; split; [apply sameMsg_refl|congruence]).
  destruct (kept_msgSend U i m my e [] db _ _ _ K E) as (H' & m' & I' & S' & K'). cbn [app] in K'.
  assert (D' : mDir m' = true) by (unfold sameMsg in S'; intuition congruence). assert (Us' : mSelf m' = u) by (unfold sameMsg in S'; intuition congruence).
  rewrite W3 in W4. apply length_zero_iff_nil in W4.
  assert (X : sent db4 i m').
  { destruct (C26_one_state_partial U db4 i m' H' I' D') as [[(A & _) _]|[[_ [(_ & _ & [j o] & A & B) _]]|[_ [_ A]]]]; [exfalso|exfalso|exact A].
    - assert (Z : In (i, m') (filter (waits u) (dbMsgs db4))) by (apply filter_In; split; [exact I'|]; unfold waits; cbn [snd]; rewrite Us', N.eqb_refl; exact A). rewrite W4 in Z. destruct Z.
    - assert (Z : In (j, o) (queueEntries db4 i)) by (rewrite A; left; reflexivity). unfold queueEntries in Z. apply filter_In in Z as [Z _].
      assert (Z' : In (j, o) (filter (own u) (dbOut db4))) by (apply filter_In; split; [exact Z|]; unfold own; cbn [snd] in *; rewrite B, Us'; apply N.eqb_refl). rewrite O4 in Z'. destruct Z'. }
  split; [apply K'; apply X|]. exists m'. auto.
Qed.

(* Without interruptions (the mix takes a message exactly if this is reported) no message is handed over twice. *)
Definition once (U : Unicode) (i : N) (m0 : msgRow) (L : list N) (db : msgdb) : Prop :=
  history U db /\ exists m, In (i, m) (dbMsgs db) /\ sameMsg m0 m /\ count_occ N.eq_dec L i = (if mSent m then 1 else 0)%nat.
Lemma once_op U i m0 L db o db' : once U i m0 L db -> permitted U db o -> noDel i o -> ~ deliveredBy db i o -> dexec U o db = Ok db' -> once U i m0 L db'.
Proof.
  intros (H & m & J & S & C) P ND DB E. split; [eapply history_dexec; eassumption|].
  destruct (msg_step U o db db' i m E J) as [[my [_ [->| ->]]]|[m' [J' [S' [K1 K2]]]]]; [elim ND; reflexivity|contradiction|].
  exists m'. split; [exact J'|]. split; [eapply sameMsg_trans; eassumption|]. rewrite C. destruct (mSent m); [rewrite (K1 eq_refl); reflexivity|].
  destruct (mSent m'); [|reflexivity]. destruct (K2 eq_refl) as [X|X]; [discriminate|contradiction].
Qed.
Lemma once_rem U i m0 L db idx t o db' : mDir m0 = true -> once U i m0 L db -> tget idx (dbOut db) = Some o -> dexec U (DRemoveOutQueue idx t) db = Ok db' -> once U i m0 (L ++ [oMsgID o]) db'.
Proof.
  intros D K T E. destruct (N.eq_dec (oMsgID o) i) as [Eq|Ne].
  - destruct K as (H & m & J & S & C). split; [exact (history_dexec U db (DRemoveOutQueue idx t) db' H I E)|].
    assert (Ns : mSent m = false).
    { assert (D' : mDir m = true) by (unfold sameMsg in S; intuition congruence).
      destruct (mSent m) eqn:Z; [exfalso|reflexivity].
      destruct (C26_one_state_partial U db i m H J D') as [[(_ & A & _) _]|[[_ [(_ & A & _) _]]|[_ [_ (_ & _ & A)]]]]; [congruence|congruence|].
      assert (Q : In (idx, o) (queueEntries db i)) by (unfold queueEntries; apply filter_In; split; [apply tget_In; exact T|cbn [snd]; apply N.eqb_eq; exact Eq]). rewrite A in Q. destruct Q. }
    exists (setSent t m). cbn [dexec] in E. unfold removeOutQueue in E. rewrite T in E. cbn [fromOpt rbind] in E. apply Ok_eq in E. subst db'. cbn [withOut withMsgs dbMsgs].
    split; [|split].
    + pose proof (In_upd_at (fun j _ => j =? oMsgID o) (setSent t) (dbMsgs db) i m J) as X. cbv beta in X. rewrite Eq, N.eqb_refl in X. rewrite Eq. exact X.
    + unfold sameMsg in *. cbn. intuition congruence.
    + rewrite Ns in C. rewrite count_occ_app, C. cbn. destruct (N.eq_dec (oMsgID o) i); [reflexivity|contradiction].
  - assert (K' : once U i m0 L db').
    { apply (once_op U i m0 L db (DRemoveOutQueue idx t)); [exact K|exact I|exact I| |exact E]. intros (a & b & c & X & Y & Z). assert (a = idx) as -> by (injection X; auto). congruence. }
    destruct K' as (H & m & J & S & C). split; [exact H|]. exists m. split; [exact J|]. split; [exact S|]. rewrite count_occ_app, C. cbn.
    destruct (N.eq_dec (oMsgID o) i); [contradiction|]. lia.
Qed.
Theorem C35_at_most_once : forall U acts db i m, history U db -> submitted db i m -> Forall (spares i) acts -> Forall (helperOk true) acts ->
  (count_occ N.eq_dec (fst (orun U acts ([], db))) i <= 1)%nat.
Proof.
  intros U acts db i m H (J & D & S) F G.
  assert (K : once U i m [] db) by (split; [exact H|]; exists m; split; [exact J|]; split; [apply sameMsg_refl|rewrite S; reflexivity]).
  destruct (ostep_inv U (once U i m) (fun a => spares i a /\ helperOk true a)) with (acts := acts) (L := @nil N) (db := db) as (_ & m' & _ & _ & C); [| |exact K| |].
  - intros L db1 o db' K1 [[P N] _] E. apply (once_op U i m L db1 o); [exact K1|apply userOp_permitted; exact P|exact N|apply userOp_delivered; exact P|exact E].
  - intros L db1 my e h db' d K1 [_ P] E. apply (msgSend_pres U (once U i m) true) with (my := my) (e := e) (db := db1) (d := d); try assumption.
    + intros L0 db0 [X _]. exact X.
    + intros L0 db0 o db'0 K0 Q P0 E0. apply (once_op U i m L0 db0 o); [exact K0|exact P0| | |exact E0]; destruct o; try contradiction; try exact Logic.I; intros (a & b & c & X & _); discriminate X.
    + intros. eapply once_rem; eassumption.
    + discriminate.
  - clear - F G. induction acts as [|a acts IH]; [constructor|]. inversion_clear F; inversion_clear G. constructor; auto.
  - rewrite C. destruct (mSent m'); lia.
Qed.

(* Examples: two users, two messages, one interrupted and one failed run, then a good one. *)
Definition exGo : oev := OGo (str "E") 5 true ROk.
Definition exEnc : option (bytes * bytes) := Some (str "C", str "N").
Definition exActs : list act :=
  map AUser exUsers ++ [AUser (DAddMessage exA exC 0 true (str "hi") false 0 0); AUser (DAddMessage exA exC 0 true (str "ho") false 0 0);
  ASend exA (mkSE [] [exEnc; exEnc] [OGo (str "E") 5 false RResend]); ASend exA (mkSE [OGo (str "E") 6 true RStop] [] [])].
Definition exState := orun goUnicode exActs ([], emptyDB).
Definition exGood := mkSE [exGo; exGo; exGo] [exEnc; exEnc] [exGo; exGo].
Example C35_example : fst exState = [1] /\ let '(h, db', d) := msgSend goUnicode exA exGood (snd exState) in
  h = [1; 2] /\ d = true /\ map (fun r => mSent (snd r)) (dbMsgs db') = [true; true] /\ dbOut db' = [].
Proof. vm_compute. repeat split. Qed.
(* the hypotheses of C35_delivered: *)
Example C35_example_hyp : Forall (helperOk false) exActs /\ mapped goUnicode exA = true /\ qNymUID exA (snd exState) = Ok 1 /\
  Forall goodO (seOld exGood) /\ Forall goodE (seEnc exGood) /\ Forall goodO (seNew exGood).
Proof.
  split.
  { repeat constructor; cbn; try discriminate; try (intros; reflexivity); try (intros X _; discriminate X). }
  split; [vm_compute; reflexivity|]. split; [vm_compute; reflexivity|].
  split; [|split]; repeat constructor; unfold goodO, goodE, exGo, exEnc; repeat eexists; discriminate.
Qed.

(* The mix can take the message and the delivery still be reported as to be repeated: an error of the final QUIT (C49_quit_refuted) is one
   with Resend set.  The next run hands the message over again, without any interruption. *)
Definition exQuit : delivered :=
  deliver (mkMO (Some (str "m")) (str "t") (str "f") None 25 (str "h") None None true)
          (mkEnv true None true (fun _ => true) None None None None None None (Some (str "EOF"))).
Theorem C35_quit_refuted : exists acts, reportOf exQuit = RResend /\ dlTaken exQuit = true /\
  Forall (fun a => match a with ASend _ e => forall env now taken rep, In (OGo env now taken rep) (seOld e ++ seNew e) -> (taken, rep) = (true, ROk) \/ (taken, rep) = (dlTaken exQuit, reportOf exQuit) | _ => True end) acts /\
  count_occ N.eq_dec (fst (orun goUnicode acts ([], emptyDB))) 1 = 2%nat.
Proof.
  exists (map AUser exUsers ++ [AUser (DAddMessage exA exC 0 true (str "hi") false 0 0); ASend exA (mkSE [] [exEnc] [OGo (str "E") 5 true RResend]); ASend exA (mkSE [exGo] [] [])]).
  split; [vm_compute; reflexivity|]. split; [vm_compute; reflexivity|]. split; [|vm_compute; reflexivity].
  replace (dlTaken exQuit) with true by (vm_compute; reflexivity). replace (reportOf exQuit) with RResend by (vm_compute; reflexivity).
  unfold exUsers. cbn [map app]. repeat (apply Forall_cons; [try exact I|]); [| |apply Forall_nil].
  all: intros env now taken rep; cbn [seOld seNew app exGo]; intros [E|[]]; unfold exGo in E; injection E as <- <- <- <-; auto.
Qed.

(* ------------------------------------------------------------------ *)
(* C84: a message that the mix refuses for good must not hold up the others. *)
(* a run of which the first delivery is answered with an error that is neither to be repeated nor "final" in the sense of line 336 *)
Definition refused (e : sendEvs) : Prop := exists env now rest, seOld e = OGo env now false RStop :: rest /\ env <> [].
Definition stuckQ (U : Unicode) (my : bytes) (u : N) (db : msgdb) : Prop :=
  mapped U my = true /\ qNymUID my db = Ok u /\ (exists i o, In (i, o) (dbOut db) /\ oSelf o = u) /\ forall i o, In (i, o) (dbOut db) -> oSelf o = u -> oMsg o <> [].
Lemma refused_step U my u db e : stuckQ U my u db -> refused e -> exists db', msgSend U my e db = ([], db', false) /\ stuckQ U my u db' /\ dbMsgs db' = dbMsgs db.
Proof.
  intros (M & Q & (i0 & o0 & I0 & S0) & F) (env & now & rest & E & NE). unfold msgSend. cbn [dexec]. unfold clearResendOutQueue. rewrite M, Q. cbn [need rbind].
  set (db1 := withOut (tupd (fun _ o => (oSelf o =? u) && oResend o) (setResend false) (dbOut db)) db).
  assert (Q1 : qNymUID my db1 = Ok u) by (rewrite <- Q; apply qNymUID_nyms; reflexivity).
  assert (X : forall j o, In (j, o) (dbOut db1) -> oSelf o = u -> oMsg o <> [] /\ oResend o = false).
  { intros j o J S. cbn [db1 withOut dbOut] in J. apply In_tupd in J as [[j0 r0] [J Z]]. cbn [fst snd] in Z. destruct ((oSelf r0 =? u) && oResend r0) eqn:B; injection Z as -> ->.
    - split; [|reflexivity]. cbn [setResend oSelf oMsg] in *. exact (F _ _ J S).
    - split; [exact (F _ _ J S)|]. apply N.eqb_eq in S. rewrite S in B. exact B. }
  assert (Ex : exists j o, In (j, o) (dbOut db1) /\ oSelf o = u).
  { pose proof (In_upd_at (fun _ o => (oSelf o =? u) && oResend o) (setResend false) (dbOut db) i0 o0 I0) as Y. cbv beta in Y. exists i0. eexists. split; [exact Y|]. destruct (_ && _); exact S0. }
  rewrite E. cbn [procOut]. unfold getOutQueue. rewrite M, Q1. cbn [need rbind].
  destruct (tmin (fun _ o => (oSelf o =? u) && negb (oResend o)) (dbOut db1)) as [[i o]|] eqn:T.
  2:{ exfalso. destruct Ex as (j & o & J & S). pose proof (tmin_none _ _ T _ J) as Y. cbn [fst snd] in Y. destruct (X _ _ J S) as [_ R]. rewrite R in Y. apply N.eqb_eq in S. rewrite S in Y. discriminate. }
  destruct (tmin_some _ _ _ T) as [I P]. cbn [fst snd] in P. apply andb_prop in P as [P _]. apply N.eqb_eq in P. rewrite (isNil_ne _ (proj1 (X _ _ I P))).
  destruct (oEnv o).
  - cbn [negb]. exists db1. split; [reflexivity|]. split; [|reflexivity]. split; [exact M|]. split; [exact Q1|]. split; [exact Ex|]. intros j r J S. apply (X _ _ J S).
  - cbn [dexec]. unfold setOutQueue. cbn [negb]. eexists. split; [reflexivity|]. split; [|reflexivity]. split; [exact M|]. split; [rewrite <- Q1; apply qNymUID_nyms; reflexivity|].
    cbn [withOut dbOut]. split.
    + destruct Ex as (j & r & J & S).
      pose proof (In_upd_at (fun k _ => k =? i) (fun o => mkOq (oSelf o) (oMsgID o) env (oNym o) (oMin o) (oMax o) true (oResend o)) (dbOut db1) j r J) as Y. cbv beta in Y. exists j. eexists. split; [exact Y|]. destruct (j =? i); exact S.
    + intros j r J S. apply In_tupd in J as [[j0 r0] [J Z]]. cbn [fst snd] in Z. destruct (j0 =? i); injection Z as -> ->; [exact NE|exact (proj1 (X _ _ J S))].
Qed.
(* However often sending is repeated, nothing of that user is handed over, as long as the first message is refused. *)
Theorem C84_stuck : forall U my u es L db, stuckQ U my u db -> Forall refused es ->
  let s := orun U (map (ASend my) es) (L, db) in fst s = L /\ dbMsgs (snd s) = dbMsgs db.
Proof.
  intros U my u. induction es as [|e es IH]; intros L db Sq F; [split; reflexivity|]. inversion_clear F as [|? ? R F'].
  destruct (refused_step U my u db e Sq R) as (db' & E & Sq' & Mm). cbv zeta. unfold orun. cbn [map fold_left ostep snd fst]. rewrite E, app_nil_r.
  fold (orun U (map (ASend my) es) (L, db')). destruct (IH L db' Sq' F') as [A B]. split; [exact A|congruence].
Qed.
(* A 550 reply to RCPT TO is such an error, since the text compared with in line 336 is that of another package; the other message is never sent. *)
Definition ex550 : delivered :=
  deliver (mkMO (Some (str "m")) (str "t") (str "f") None 25 (str "h") None None true)
          (mkEnv true None true (fun _ => true) None None (Some (str "550 no such user")) None None None None).
Theorem C84_refuted : exists db, history goUnicode db /\ reportOf ex550 = RStop /\ dlTaken ex550 = false /\
  (exists m, submitted db 1 m) /\ (exists m, submitted db 2 m) /\ dbOut db = [] /\
  forall first es, Forall refused es -> seOld first = [] -> seEnc first = [exEnc; exEnc] -> (exists env now rest, seNew first = OGo env now (dlTaken ex550) (reportOf ex550) :: rest /\ env <> []) ->
  fst (orun goUnicode (map (ASend exA) (first :: es)) ([], db)) = [].
Proof.
  exists (exRun [DAddMessage exA exC 0 true (str "hi") false 0 0; DAddMessage exA exC 0 true (str "ho") false 0 0]).
  split.
  { unfold exRun, exUsers, exU. cbn [app drun fold_left]. repeat match goal with |- history _ (dstep _ _ _) => apply h_step end; try exact I; apply h_new. }
  split; [vm_compute; reflexivity|]. split; [vm_compute; reflexivity|].
  split; [eexists; unfold submitted; vm_compute; split; [left; reflexivity|split; reflexivity]|].
  split; [eexists; unfold submitted; vm_compute; split; [right; left; reflexivity|split; reflexivity]|]. split; [vm_compute; reflexivity|].
  intros first es F E1 E2 (env & now & rest & E3 & NE). replace (dlTaken ex550) with false in E3 by (vm_compute; reflexivity). replace (reportOf ex550) with RStop in E3 by (vm_compute; reflexivity).
  destruct first as [a b c]. cbn [seOld seEnc seNew] in *. subst a b c.
  set (db := exRun _). unfold orun. cbn [map fold_left ostep fst snd].
  assert (X : exists db', msgSend goUnicode exA (mkSE [] [exEnc; exEnc] (OGo env now false RStop :: rest)) db = ([], db', false) /\ stuckQ goUnicode exA 1 db').
  { remember (OGo env now false RStop :: rest) as evs. unfold msgSend. cbn [seOld seEnc seNew].
    assert (A : exists d, dexec goUnicode (DClearResend exA) db = Ok d) by (eexists; vm_compute; reflexivity).
    assert (B : match dexec goUnicode (DClearResend exA) db with Ok d => procOut goUnicode exA [] d = ([], db, true) | _ => False end) by (vm_compute; reflexivity).
    destruct A as [d A]. rewrite A in *. rewrite B. cbn [negb].
    assert (C : match encLoop goUnicode exA [exEnc; exEnc] db with (d, true) => stuckQ goUnicode exA 1 d /\ getOutQueue goUnicode exA d = Ok (Some (1, str "C", str "N", 0%Z, 0%Z, false)) /\ dbOut d <> [] | _ => False end).
    { unfold stuckQ. vm_compute. split; [|split; [reflexivity|discriminate]]. split; [reflexivity|]. split; [reflexivity|]. split; [eexists _, _; split; [left; reflexivity|reflexivity]|].
      intros i o [E|[E|[]]] _; injection E as <- <-; discriminate. }
    destruct (encLoop goUnicode exA [exEnc; exEnc] db) as [d3 [|]]; [|destruct C]. cbn [negb]. destruct C as (Sq & G & _). subst evs. cbn [procOut]. rewrite G. cbn [isNil str].
    cbn [dexec]. unfold setOutQueue. eexists. split; [reflexivity|]. destruct Sq as (S1 & S2 & (j & o & J & S) & S4).
    split; [exact S1|]. split; [rewrite <- S2; apply qNymUID_nyms; reflexivity|]. cbn [withOut dbOut]. split.
    - pose proof (In_upd_at (fun k _ => k =? 1) (fun o => mkOq (oSelf o) (oMsgID o) env (oNym o) (oMin o) (oMax o) true (oResend o)) (dbOut d3) j o J) as Y. cbv beta in Y. exists j. eexists. split; [exact Y|]. destruct (j =? 1); exact S.
    - intros k r K Sr. apply In_tupd in K as [[k0 r0] [K Z]]. cbn [fst snd] in Z. destruct (k0 =? 1); injection Z as -> ->; [exact NE|exact (S4 _ _ K Sr)]. }
  destruct X as (db' & X & Sq). rewrite X, app_nil_r. fold (orun goUnicode (map (ASend exA) es) ([], db')).
  apply (C84_stuck goUnicode exA 1 es [] db' Sq F).
Qed.
(* With an empty-free queue whose deliveries all end (taken, to be repeated, or retracted), a run gets through the whole queue: C35_delivered. *)

Print Assumptions C35_not_lost.
Print Assumptions C35_delivered.
Print Assumptions C35_at_most_once.
Print Assumptions C35_quit_refuted.
Print Assumptions C84_stuck.
Print Assumptions C84_refuted.
