(* Properties of the message database: C25-C30, C32. *)
From Verif Require Import Base Base64Model Base64Proofs IdentityModel IdentityProofs Maps SqlModel SqlProofs
  MsgDBModel MsgDBProofs MsgDBQueue MsgDBView MsgDBSpec MsgDBSteps.
From Coq Require Import Sorting.Sorted.
Local Open Scope N_scope.

(* identities used in the examples *)
Definition exA : bytes := str "ann@b.de".
Definition exB : bytes := str "bob@b.de".
Definition exC : bytes := str "cat@b.de".
Definition exU : Unicode := goUnicode.
Definition exUsers : list dop :=
  [DAddNym exA (str "Ann@b.de") []; DAddNym exB exB []; DAddContact exA exC exC (str "Carl") 0; DAddContact exB exC exC [] 0].
Definition exRun (ops : list dop) : msgdb := drun exU (exUsers ++ ops) emptyDB.

(* ------------------------------------------------------------------ *)
(* C25: settings are last-write-wins.  [lastValue k ops] is the value of the last write
   to k in the history (writes of empty keys or values are refused); [] if none. *)
Fixpoint lastValue (k : bytes) (ops : list dop) : bytes :=
  match ops with
  | [] => []
  | o :: ops' =>
      match lastValue k ops' with
      | [] => match o with DAddValue k' v => if beq k' k then v else [] | _ => [] end
      | v => v
      end
  end.
Lemma follow_lastValue U k : k <> [] -> forall ops s db,
  follow U (lastWrite k) s db ops = match lastValue k ops with [] => s | v => v end.
Proof.
  intros K. induction ops as [|o ops IH]; intros s db; [reflexivity|]. cbn [follow lastValue]. rewrite IH.
  destruct (lastValue k ops) as [|x l]; [|reflexivity].
  destruct o as [k' v| | | | | | | | | | | | | | | | | | | | | | | |]; cbn [lastWrite]; try (destruct (is_ok _); reflexivity).
  cbn [dexec]. unfold addValue. destruct (beq k' k) eqn:B.
  - apply beq_spec in B as ->. destruct k; [congruence|]. destruct v; reflexivity.
  - destruct (is_ok _); reflexivity.
Qed.
Theorem C25_last_write_wins : forall U ops k, k <> [] ->
  getValue k (drun U ops emptyDB) = Ok (lastValue k ops).
Proof.
  intros U ops k K. unfold getValue. destruct (isNil k) eqn:N; [apply isNil_spec in N; contradiction|].
  cbn [negb need rbind]. f_equal. change (kvOf k (drun U ops emptyDB) = lastValue k ops).
  rewrite kv_run, follow_lastValue by exact K. destruct (lastValue k ops); reflexivity.
Qed.
Example C25_ex : getValue (str "k") (exRun [DAddValue (str "k") (str "1"); DAddValue (str "l") (str "2"); DAddValue (str "k") (str "3");
    DAddValue (str "k") []]) = Ok (str "3")
  /\ getValue (str "m") (exRun [DAddValue (str "k") (str "1")]) = Ok [].
Proof. vm_compute. auto. Qed.

(* ------------------------------------------------------------------ *)
(* C26: the out-queue neither loses nor duplicates. *)
(* the out-queue entries of message i *)
Definition queueEntries (db : msgdb) (i : N) : list (N * oqRow) := filter (fun e => oMsgID (snd e) =? i) (dbOut db).
Definition waiting (db : msgdb) (i : N) (m : msgRow) : Prop := mToSend m = true /\ mSent m = false /\ queueEntries db i = [].
Definition queued (db : msgdb) (i : N) (m : msgRow) : Prop :=
  mToSend m = false /\ mSent m = false /\ exists e, queueEntries db i = [e] /\ oSelf (snd e) = mSelf m.
Definition sent (db : msgdb) (i : N) (m : msgRow) : Prop := mToSend m = false /\ mSent m = true /\ queueEntries db i = [].
Definition exactlyOne (A B C : Prop) : Prop := (A /\ ~ B /\ ~ C) \/ (~ A /\ B /\ ~ C) \/ (~ A /\ ~ B /\ C).

(* Every message the user submitted is in exactly one of the three states. *)
Theorem C26_one_state_partial : forall U db i m, history U db -> In (i, m) (dbMsgs db) -> mDir m = true ->
  exactlyOne (waiting db i m) (queued db i m) (sent db i m).
Proof.
  intros U db i m H I D. pose proof (history_qInv U db H i m I) as Q. unfold qOk in Q. rewrite D in Q.
  unfold exactlyOne, waiting, queued, sent. change (queueEntries db i) with (entriesOf (dbOut db) i).
  destruct (mToSend m), (mSent m); try contradiction.
  - left. repeat split; try exact Q; intros [A B]; discriminate.
  - right; right. repeat split; try exact Q; intros [A [B _]]; discriminate.
  - right; left. repeat split; try exact Q; intros [A [B _]]; discriminate.
Qed.
(* At most one entry per message, and none for a message that is not outgoing or gone. *)
Theorem C26_one_entry_partial : forall U db i, history U db -> (length (queueEntries db i) <= 1)%nat.
Proof.
  intros U db i H. destruct (queueEntries db i) as [|[j e] l] eqn:E; [cbn; lia|].
  assert (J : In (j, e) (queueEntries db i)) by (rewrite E; now left).
  unfold queueEntries in J. apply filter_In in J as [J P]. cbn [snd] in P. apply N.eqb_eq in P.
  destruct (out_msg U _ _ _ (history_Inv U _ H) J) as [m M]. rewrite P in M.
  pose proof (history_qInv U db H i m M) as Q. unfold qOk in Q. change (entriesOf (dbOut db) i) with (queueEntries db i) in Q.
  rewrite E in Q. destruct (mDir m), (mToSend m), (mSent m); try contradiction; try discriminate.
  destruct Q as [x [Q _]]. rewrite Q. cbn. lia.
Qed.
(* Submitting a message makes it a waiting one. *)
Theorem C26_submit : forall U db db' self peer d text sign a b, history U db ->
  addMessage U self peer d true text sign a b db = Ok db' ->
  exists i m, In (i, m) (dbMsgs db') /\ (forall m0, ~ In (i, m0) (dbMsgs db)) /\ qNymUID self db' = Ok (mSelf m) /\
    mDir m = true /\ mText m = text /\ mTo m = peer /\ waiting db' i m.
Proof.
  intros U db db' self peer d text sign a b H A. unfold addMessage in A. inv1 A. inv1 A. inv1 A. inv1 A. apply Ok_eq in A as <-.
  exists (nextId (dbMsgs db)). eexists. cbn [withMsgs dbMsgs]. split; [apply In_tins; right; reflexivity|].
  split; [intros m0 I; pose proof (nextId_gt _ _ I) as L; cbn [fst] in L; lia|].
  cbn [mSelf mDir mText mTo]. split; [exact E1|]. repeat split. change (entriesOf (dbOut db) (nextId (dbMsgs db)) = []). apply (entries_fresh U). apply history_Inv; exact H.
Qed.
(* Nothing is dropped: after any further operation the message is still there with the
   same text and addressee, unless its owner deleted it (or itself); a message once sent stays so; and
   it becomes sent only when the delivery of its queue entry is recorded. *)
Theorem C26_not_dropped : forall U db o i m, In (i, m) (dbMsgs db) ->
  userDeleted db i m o \/
  exists m', In (i, m') (dbMsgs (dstep U db o)) /\ sameMsg m m' /\ (mSent m = true -> mSent m' = true) /\
             (mSent m' = true -> mSent m = true \/ deliveredBy db i o).
Proof.
  intros U db o i m I. unfold dstep. destruct (dexec U o db) as [db'| |] eqn:E.
  - eapply msg_step; eassumption.
  - right. exists m. repeat split; auto.
  - right. exists m. repeat split; auto.
Qed.
(* Over a whole history in which no user and no message is deleted, no message disappears. *)
Theorem C26_kept_forever : forall U ops db i m, In (i, m) (dbMsgs db) ->
  (forall o, In o ops -> match o with DDelMessage _ j => j <> i | DDelNym _ => False | _ => True end) ->
  exists m', In (i, m') (dbMsgs (drun U ops db)) /\ sameMsg m m'.
Proof.
  intros U. induction ops as [|o ops IH]; intros db i m I N; [exists m; split; [exact I|apply sameMsg_refl]|].
  destruct (C26_not_dropped U db o i m I) as [[my [_ [->| ->]]]|[m' [I' [S _]]]].
  - elim (N (DDelMessage my i) (or_introl eq_refl)). reflexivity.
  - elim (N (DDelNym my) (or_introl eq_refl)).
  - destruct (IH (dstep U db o) i m' I') as [m'' [I'' S'']]; [intros; apply N; now right|].
    exists m''. split; [exact I''|]. unfold sameMsg in *. intuition congruence.
Qed.
(* The database interface itself does not enforce it: queueing one message twice gives two
   entries (and two deliveries); only the caller's discipline prevents it. *)
Theorem C26_refuted : exists ops i, length (queueEntries (drun goUnicode ops emptyDB) i) = 2%nat.
Proof.
  exists (exUsers ++ [DAddMessage exA exC 0 true (str "hi") false 0 0;
    DAddOutQueue exA 1 (str "x") (str "n") 0 0; DAddOutQueue exA 1 (str "x") (str "n") 0 0]), 1.
  vm_compute. reflexivity.
Qed.
Definition exSent : msgdb := exRun [DAddMessage exA exC 0 true (str "hi") false 0 0; DAddMessage exA exC 0 true (str "ho") false 0 0;
  DAddOutQueue exA 1 (str "x") (str "n") 0 0; DAddOutQueue exA 2 (str "y") (str "n") 0 0; DSetOutQueue 1 (str "e"); DRemoveOutQueue 1 5].
Example C26_ex : exists m1 m2, dbMsgs exSent = [(1, m1); (2, m2)] /\ sent exSent 1 m1 /\ queued exSent 2 m2.
Proof. eexists; eexists. vm_compute. repeat split. eexists; split; reflexivity. Qed.
Lemma history_run U ops db : history U db ->
  (forall pre o post, ops = pre ++ o :: post -> permitted U (drun U pre db) o) -> history U (drun U ops db).
Proof.
  revert db. induction ops as [|o ops IH]; intros db H P; [exact H|]. cbn [drun fold_left]. apply IH.
  - constructor; [exact H|]. exact (P [] o ops eq_refl).
  - intros pre o' post E. specialize (P (o :: pre) o' post). cbn [app] in P. rewrite E in P. exact (P eq_refl).
Qed.
Example C26_ex_history : history goUnicode exSent.
Proof.
  assert (ST : forall db o, history goUnicode db -> permitted goUnicode db o -> history goUnicode (dstep goUnicode db o)).
  { intros; now constructor. }
  unfold exSent, exRun, exUsers, exU. cbn [app drun fold_left].
  repeat match goal with |- history _ (dstep _ _ _) => apply ST end; try exact I; try constructor.
  - do 5 eexists. vm_compute. reflexivity.
  - do 5 eexists. vm_compute. reflexivity.
Qed.

(* ------------------------------------------------------------------ *)
(* C27: queues are first-in first-out. *)
Definition eligible (u : N) (e : N * oqRow) : bool := (oSelf (snd e) =? u) && negb (oResend (snd e)).
(* GetOutQueue returns the content of the first eligible entry of the user in insertion
   order, or nothing exactly if there is none. *)
Theorem C27_out_first : forall U ops my u, let db := drun U ops emptyDB in
  mapped U my = true -> qNymUID my db = Ok u ->
  match getOutQueue U my db with
  | Ok (Some (i, msg, nym, mn, mx, env)) =>
      exists pre e post, dbOut db = pre ++ (i, e) :: post /\ eligible u (i, e) = true /\
        (forall x, In x pre -> eligible u x = false) /\ msg = oMsg e /\ nym = oNym e /\ mn = oMin e /\ mx = oMax e /\ env = oEnv e
  | Ok None => forall x, In x (dbOut db) -> eligible u x = false
  | _ => False
  end.
Proof.
  intros U ops my u db M Q. pose proof (Inv_drun U ops _ (Inv_empty U)) as V. change (Inv U db) in V.
  unfold getOutQueue. rewrite M, Q. cbn [need rbind]. rewrite tmin_find by apply (iv_out _ _ V).
  change (fun r : N * oqRow => (oSelf (snd r) =? u) && negb (oResend (snd r))) with (eligible u).
  destruct (find (eligible u) (dbOut db)) as [[i e]|] eqn:F.
  - destruct (find_first _ _ _ F) as [pre [post [E [P NP]]]]. exists pre, e, post. repeat split; assumption.
  - intros x X. eapply find_none; eassumption.
Qed.
(* The queue table is in insertion order: an operation appends an entry at the end, or
   removes entries, or rewrites some in place ([outStep] gives the exact effect of each). *)
Theorem C27_out_order : forall U o db,
  let t := dbOut db in let t' := dbOut (dstep U db o) in t' = t \/ outStep o t t'.
Proof. intros U o db. unfold dstep. destruct (dexec U o db) eqn:E; auto. right. eapply out_step; exact E. Qed.
(* Content and stage of an entry are those last written: they only change when SetOutQueue
   is called for this entry, which sets exactly what it is given; new entries carry what
   AddOutQueue was given. *)
Theorem C27_out_content : forall U o db db' i e', dexec U o db = Ok db' -> In (i, e') (dbOut db') ->
  (exists e, In (i, e) (dbOut db) /\ oMsgID e' = oMsgID e /\ oSelf e' = oSelf e /\ oNym e' = oNym e /\
     match o with
     | DSetOutQueue j msg => if i =? j then oMsg e' = msg /\ oEnv e' = true else oMsg e' = oMsg e /\ oEnv e' = oEnv e
     | _ => oMsg e' = oMsg e /\ oEnv e' = oEnv e
     end) \/
  (exists my m msg nym a b, o = DAddOutQueue my m msg nym a b /\ i = nextId (dbOut db) /\
     oMsgID e' = m /\ oMsg e' = msg /\ oNym e' = nym /\ oEnv e' = false /\ oResend e' = false).
Proof.
  intros U o db db' i e' H I. pose proof (out_step _ _ _ _ H) as S.
  destruct o; cbn [outStep] in S; try solve [rewrite S in I; left; exists e'; auto 10].
  - destruct S as [keep S]. rewrite S in I. apply filter_In in I as [I _]. left; exists e'; auto 10.
  - destruct S as [keep S]. rewrite S in I. apply filter_In in I as [I _]. left; exists e'; auto 10.
  - destruct S as [m S]. rewrite S in I. apply in_app_or in I as [I|[I|[]]].
    + left; exists e'; auto 10.
    + right. injection I as <- <-. do 6 eexists. split; [reflexivity|]. repeat split.
  - rewrite S in I. apply in_map_iff in I as [[j e] [E I]]. cbn [fst snd] in E. left.
    destruct (j =? oqIdx) eqn:J; injection E as <- <-; exists e; rewrite J; cbn; auto 10.
  - rewrite S in I. apply filter_In in I as [I _]. left; exists e'; auto 10.
  - rewrite S in I. apply filter_In in I as [I _]. left; exists e'; auto 10.
  - rewrite S in I. apply in_map_iff in I as [[j e] [E I]]. cbn [fst snd] in E. left.
    destruct (j =? oqIdx) eqn:J; injection E as <- <-; exists e; cbn; auto 10.
  - destruct S as [u S]. rewrite S in I. apply in_map_iff in I as [[j e] [E I]]. cbn [fst snd] in E. left.
    destruct (oSelf e =? u) eqn:J; injection E as <- <-; exists e; cbn; auto 10.
Qed.
(* The in-queue: the oldest entry of all, with owner and contact names. *)
Theorem C27_in_first : forall U ops, let db := drun U ops emptyDB in
  match getInQueue db with
  | Ok None => dbIn db = []
  | Ok (Some (i, my, c, msg, env)) =>
      exists r post, dbIn db = (i, r) :: post /\ msg = iMsg r /\ env = iEnv r /\ qNymUID my db = Ok (iMy r) /\
        (if iContact r =? 0 then c = [] else qContactUID (iMy r) c db = Ok (iContact r))
  | _ => False
  end.
Proof.
  intros U ops db. pose proof (Inv_drun U ops _ (Inv_empty U)) as V. change (Inv U db) in V.
  unfold getInQueue. rewrite tmin_find by apply (iv_in _ _ V). destruct (dbIn db) as [|[i r] post] eqn:E; [reflexivity|].
  cbn [find fst snd]. destruct (iv_in _ _ V) as [_ F]. rewrite E in F. inversion F as [|? ? [F1 F2] _]; subst. cbn [snd] in F1, F2.
  unfold nkeys in F1. apply in_map_iff in F1 as [[u n] [E1 F1]]. cbn [fst] in E1. subst u.
  unfold qNymMapped. rewrite (tget_intro _ _ _ (proj1 (iv_nyms _ _ V)) F1). cbn [rbind].
  pose proof (qNymUID_intro U _ _ _ (iv_nyms _ _ V) F1) as Q.
  destruct F2 as [Z|Z].
  - rewrite Z. change (0 <? 0) with false. cbn [rbind]. exists r, post. rewrite Z. change (0 =? 0) with true. repeat split; auto.
  - unfold ckeys in Z. apply in_map_iff in Z as [[j s] [EZ Z]]. cbn [fst snd] in EZ. injection EZ as EJ ES.
    destruct (iv_contacts _ _ V) as [[O1 O2] _]. rewrite Forall_forall in O2. pose proof (O2 j (in_map fst _ _ Z)) as PJ.
    replace (0 <? iContact r) with true by (symmetry; apply N.ltb_lt; lia).
    assert (T : tmin (fun k c => (cMy c =? iMy r) && (k =? iContact r)) (dbContacts db) = Some (j, s)).
    { destruct (tmin _ _) as [[k x]|] eqn:T.
      - apply tmin_some in T as [K P]. cbn [fst snd] in P. apply andb_prop in P as [_ P]. apply N.eqb_eq in P. subst k.
        rewrite <- EJ in K. rewrite EJ in *. f_equal. f_equal. eapply idsOk_unique; [split; [exact O1|apply Forall_forall; exact O2]| |];
          eassumption.
      - pose proof (tmin_none _ _ T _ Z) as X. cbn [fst snd] in X. rewrite ES, EJ, !N.eqb_refl in X. discriminate. }
    unfold qContactMapped. rewrite T. cbn [rbind]. exists r, post. repeat split; auto.
    replace (iContact r =? 0) with false by (symmetry; apply N.eqb_neq; lia).
    unfold qContactUID. rewrite (tmin_contact U db (iMy r) (cMapped s) j s V Z); [congruence|].
    apply isContact_spec; auto.
Qed.
Theorem C27_in_order : forall U o db,
  let t := dbIn db in let t' := dbIn (dstep U db o) in t' = t \/ inStep o t t'.
Proof. intros U o db. unfold dstep. destruct (dexec U o db) eqn:E; auto. right. eapply in_step; exact E. Qed.
Definition exQueue : list dop :=
  [DAddMessage exA exC 0 true (str "hi") false 0 0; DAddMessage exA exC 0 true (str "ho") false 0 0;
   DAddMessage exB exC 0 true (str "he") false 0 0; DAddOutQueue exB 3 (str "z") (str "n") 0 0;
   DAddOutQueue exA 2 (str "y") (str "n") 0 0; DAddOutQueue exA 1 (str "x") (str "n") 0 0].
Example C27_ex : getOutQueue exU exA (exRun exQueue) = Ok (Some (2, str "y", str "n", 0%Z, 0%Z, false))
  /\ getOutQueue exU exA (exRun (exQueue ++ [DSetResend 2])) = Ok (Some (3, str "x", str "n", 0%Z, 0%Z, false))
  /\ getOutQueue exU exA (exRun (exQueue ++ [DSetOutQueue 2 (str "e")])) = Ok (Some (2, str "e", str "n", 0%Z, 0%Z, true))
  /\ getInQueue (exRun [DAddInQueue exB exC 7 (str "m"); DAddInQueue exA [] 8 (str "o")]) = Ok (Some (1, exB, exC, str "m", true))
  /\ getInQueue (exRun [DAddInQueue exB exC 7 (str "m"); DAddInQueue exA [] 8 (str "o"); DDelInQueue 1]) = Ok (Some (2, exA, [], str "o", true)).
Proof. vm_compute. auto 10. Qed.

(* ------------------------------------------------------------------ *)
(* C28: incoming messages move to the message list exactly once. *)
Theorem C28_exactly_once : forall U ops idx text from drop db', let db := drun U ops emptyDB in
  dexec U (DRemoveInQueue idx text from drop) db = Ok db' ->
  (* exactly this entry goes *)
  exists r, In (idx, r) (dbIn db) /\ dbIn db' = filter (fun e => negb (fst e =? idx)) (dbIn db) /\
  (* one message is added to the owner's list, or none *)
  (if drop then dbMsgs db' = dbMsgs db
   else exists i m, dbMsgs db' = dbMsgs db ++ [(i, m)] /\ (forall m0, ~ In (i, m0) (dbMsgs db)) /\
          mSelf m = iMy r /\ mText m = text /\ mFrom m = from /\ qNymUID (mTo m) db = Ok (iMy r) /\
          qContactUID (iMy r) from db = Ok (mPeer m) /\ mDir m = false /\ mDate m = iDate r /\ mRead m = false) /\
  (* nothing else changes *)
  dbKV db' = dbKV db /\ dbNyms db' = dbNyms db /\ dbContacts db' = dbContacts db /\ dbAccounts db' = dbAccounts db /\
  dbOut db' = dbOut db /\ dbIds db' = dbIds db /\
  (* and it cannot be finished again *)
  forall text' from' drop', is_ok (dexec U (DRemoveInQueue idx text' from' drop') db') = false.
Proof.
  intros U ops idx text from drop db' db H. pose proof (Inv_drun U ops _ (Inv_empty U)) as V. change (Inv U db) in V.
  cbn [dexec] in *. unfold removeInQueue in H. inv1 H. inv1 H. inv1 H. inv1 H. apply Ok_eq in H. rename a0 into r.
  apply tget_In in E0. exists r. subst db'. cbn [withIn withMsgs dbIn dbMsgs dbKV dbNyms dbContacts dbAccounts dbOut dbIds].
  split; [exact E0|]. split; [reflexivity|]. split.
  { destruct drop; [reflexivity|]. exists (nextId (dbMsgs db)). eexists. split; [reflexivity|].
    split; [intros m0 I; pose proof (nextId_gt _ _ I) as L; cbn [fst] in L; lia|]. cbn [mSelf mText mFrom mTo mPeer mDir mDate mRead].
    repeat split; auto. unfold qNymMapped in E2. destruct (tget (iMy r) (dbNyms db)) as [n|] eqn:T; [|discriminate].
    apply Ok_eq in E2 as <-. apply tget_In in T. eapply qNymUID_intro; [apply (iv_nyms _ _ V)|exact T]. }
  repeat split. intros text' from' drop'. unfold removeInQueue. destruct (need _ _); try reflexivity. cbn [rbind withIn dbIn].
  destruct (tget idx (tdel (fun i _ => i =? idx) (dbIn db))) as [r'|] eqn:T; [|reflexivity].
  apply tget_In in T. apply In_tdel in T as [_ T]. cbn [fst] in T. rewrite N.eqb_refl in T. discriminate.
Qed.
(* Discarding an entry removes exactly that entry. *)
Theorem C28_discard : forall U idx db db', dexec U (DDelInQueue idx) db = Ok db' ->
  dbIn db' = filter (fun e => negb (fst e =? idx)) (dbIn db) /\ dbMsgs db' = dbMsgs db /\ dbOut db' = dbOut db /\
  dbContacts db' = dbContacts db /\ dbNyms db' = dbNyms db /\ dbAccounts db' = dbAccounts db.
Proof. intros U idx db db' H. cbn [dexec] in H. apply Ok_eq in H as <-. repeat split. Qed.
(* The owner then reads the text under the new number. *)
Example C28_ex : let db := exRun [DAddInQueue exA exC 7 (str "c"); DAddInQueue exB exC 8 (str "d"); DSetInQueue 1 (str "i");
    DRemoveInQueue 1 (str "hello") exC false] in
  getMessage exU exA 1 db = Ok (str "Carl <cat@b.de>", str "Ann@b.de", str "hello", 7%Z) /\ map fst (dbIn db) = [2]
  /\ is_ok (dexec exU (DRemoveInQueue 1 (str "hello") exC false) db) = false.
Proof. vm_compute. auto. Qed.

(* ------------------------------------------------------------------ *)
(* C29: users are isolated. *)
Theorem C29_writes_partial : forall U db o b u, history U db -> permitted U db o ->
  qNymUID b db = Ok u -> actor db o <> Some b ->
  view u (dstep U db o) = view u db /\ qNymUID b (dstep U db o) = Ok u.
Proof.
  intros U db o b u H P Q N. unfold dstep. destruct (dexec U o db) as [db'| |] eqn:E; try (split; [reflexivity|exact Q]).
  split.
  - eapply view_dexec; try eassumption; [eapply history_Inv; exact H|eapply history_qInv; exact H].
  - assert (X : uidOf b db' = Some u).
    { eapply uid_keep; [eapply history_Inv; exact H|exact E| |unfold uidOf; rewrite Q; reflexivity].
      intros ->. apply N. reflexivity. }
    unfold uidOf in X. destruct (qNymUID b db'); try discriminate. congruence.
Qed.
(* Whatever the user b can read is determined by its own part of the database. *)
Theorem C29_reads : forall U ops ops' b u, let db := drun U ops emptyDB in let db' := drun U ops' emptyDB in
  qNymUID b db = Ok u -> qNymUID b db' = Ok u -> view u db' = view u db ->
  getNym U b db' = getNym U b db /\ (forall bl, getContacts U b bl db' = getContacts U b bl db) /\
  (forall c, getContact U b c db' = getContact U b c db) /\ getMsgIDs U b db' = getMsgIDs U b db /\
  (forall i r, getMessage U b i db = Ok r <-> getMessage U b i db' = Ok r) /\
  getUndelivered U b db' = getUndelivered U b db /\ getOutQueue U b db' = getOutQueue U b db /\
  getAccounts U b db' = getAccounts U b db /\ (forall c, getAccount U b c db' = getAccount U b c db) /\
  (forall c, getAccountTime U b c db' = getAccountTime U b c db) /\ (forall c, getCache U b c db' = getCache U b c db) /\
  (forall sel, getUpkeep U sel b db' = getUpkeep U sel b db).
Proof.
  intros U ops ops' b u db db' Q Q' W.
  pose proof (Inv_drun U ops _ (Inv_empty U)) as V. change (Inv U db) in V.
  pose proof (Inv_drun U ops' _ (Inv_empty U)) as V'. change (Inv U db') in V'.
  split; [eapply read_getNym; eassumption|]. split; [intros; eapply read_getContacts; eassumption|].
  split; [intros; eapply read_getContact; eassumption|]. split; [eapply read_getMsgIDs; eassumption|].
  split. { intros i r. split; intros X; [eapply (read_getMessage U db db'); eassumption|].
           eapply (read_getMessage U db' db); try eassumption. symmetry; exact W. }
  split; [eapply read_getUndelivered; eassumption|]. split; [eapply read_getOutQueue; eassumption|].
  split; [eapply read_getAccounts; eassumption|]. split; [intros; eapply read_getAccount; eassumption|].
  split; [intros; eapply read_getAccountTime; eassumption|]. split; [intros; eapply read_getCache; eassumption|].
  intros; eapply read_getUpkeep; eassumption.
Qed.
(* Deleting a user removes everything of that user, and only that. *)
Theorem C29_delete : forall U db db' my u, history U db -> qNymUID my db = Ok u -> dexec U (DDelNym my) db = Ok db' ->
  view u db' = emptyView /\ qNymUID my db' = Err "sql: no rows in result set" /\
  (forall b v, qNymUID b db = Ok v -> b <> my -> view v db' = view v db) /\ dbKV db' = dbKV db.
Proof.
  intros U db db' my u H Q D. pose proof (history_Inv U db H) as V. split; [|split; [|split]].
  - eapply view_delNym; eassumption.
  - pose proof (delNym_uid U my db db' V D) as X. clear Q. unfold uidOf, qNymUID in *. destruct (tmin _ (dbNyms db')) as [[? ?]|]; [discriminate|reflexivity].
  - intros b v B NE. eapply view_dexec; try eassumption; [eapply history_qInv; exact H|exact I|]. cbn [actor]. congruence.
  - eapply dexec_KV; [exact D|discriminate].
Qed.
(* A user created later starts with nothing, even if it gets the number of a deleted one. *)
Theorem C29_fresh_user : forall U db db' my un full v, history U db -> qNymUID my db = Err "sql: no rows in result set" ->
  dexec U (DAddNym my un full) db = Ok db' -> qNymUID my db' = Ok v ->
  view v db' = mkView [(v, mkNym my un full 0 0)] [] [] [] [] [] [].
Proof.
  intros U db db' my un full v H Q D Q'. pose proof (history_Inv U db H) as V.
  assert (NV : forall n, ~ In (nextId (dbNyms db), n) (dbNyms db)) by (intros n I; pose proof (nextId_gt _ _ I) as L; cbn [fst] in L; lia).
  pose proof (view_unused U db _ V NV) as E.
  destruct (addNym_uid U my un full db db' V D) as [[i [X _]]|[_ X]]; [unfold uidOf in X; rewrite Q in X; discriminate|].
  unfold uidOf in X. rewrite Q' in X. injection X as ->.
  cbn [dexec] in D. unfold addNym in D. inv1 D. inv1 D. inv1 D. inv1 D. inv1 D. destruct (thas _ _) eqn:TH.
  { exfalso. apply thas_true in TH as [[i n] [I P]]. cbn [snd] in P. apply beq_spec in P. subst my.
    rewrite (qNymUID_intro U _ _ _ (iv_nyms _ _ V) I) in Q. discriminate. }
  inv1 D. apply Ok_eq in D as <-. unfold view, emptyView in *. cbn [withNyms dbNyms dbContacts dbAccounts dbMsgs dbOut dbIn dbIds].
  injection E as Y1 Y2 Y3 Y4 Y5 Y6 Y7. rewrite tsel_tins, Y1, Y2, Y3, Y4, Y5, Y6, Y7, N.eqb_refl. reflexivity.
Qed.
(* The raw interface does not check that a message queued for sending belongs to the user. *)
Theorem C29_refuted : exists ops o b u, let db := drun goUnicode ops emptyDB in
  qNymUID b db = Ok u /\ actor db o <> Some b /\ view u (dstep goUnicode db o) <> view u db.
Proof.
  exists (exUsers ++ [DAddMessage exB exC 0 true (str "hi") false 0 0]), (DAddOutQueue exA 1 (str "x") (str "n") 0 0), exB, 2.
  vm_compute. repeat split; discriminate.
Qed.
Example C29_ex : let ops := [DAddMessage exA exC 0 true (str "hi") false 0 0; DAddMessage exB exC 0 true (str "ho") false 0 0] in
  qNymUID exB (exRun ops) = Ok 2 /\ vMsgs (view 2 (exRun ops)) <> [] /\
  is_ok (dexec exU (DDelNym exA) (exRun ops)) = true /\
  getMessage exU exB 2 (dstep exU (exRun ops) (DDelNym exA)) = Ok (str "bob@b.de", str "cat@b.de", str "ho", 0%Z) /\
  is_ok (getMessage exU exB 1 (exRun ops)) = false.
Proof. vm_compute. repeat split; discriminate. Qed.

(* ------------------------------------------------------------------ *)
(* C30: contact lists reflect the last decision. *)
(* [decide] is the record kept of the decisions about one contact; only operations that
   succeed count ([follow]).  White (0) is on the contact list, black (2) on the list of
   blocked contacts, gray (1) on neither. *)
Theorem C30_last_decision : forall U ops my c,
  mapped U my = true -> mapped U c = true ->
  let db := drun U ops emptyDB in
  match follow U (decide my c) None emptyDB ops with
  | None => forall r, getContact U my c db = Ok r -> r = ([], [], 0)
  | Some (un, full, t) => t <= 2 -> getContact U my c db = Ok (un, full, t)
  end.
Proof.
  intros U ops my c M C db. rewrite <- cstate_run. fold db. unfold cstate, getContact. rewrite M, C. cbn [need rbind].
  unfold uidOf. destruct (qNymUID my db) as [u| |] eqn:Q; cbn [rbind]; try discriminate.
  destruct (tmin _ _) as [[i r]|].
  - intros L. apply N.leb_le in L. rewrite L. reflexivity.
  - intros r E. apply Ok_eq in E. congruence.
Qed.
(* The lists consist of exactly the contacts with that last decision. *)
Theorem C30_lists : forall U ops my blocked l, let db := drun U ops emptyDB in
  getContacts U my blocked db = Ok l ->
  exists cs, NoDup cs /\
    (forall c, In c cs <-> exists un full, follow U (decide my c) None emptyDB ops = Some (un, full, if blocked then 2 else 0)) /\
    Forall2 (fun c name => exists un full, follow U (decide my c) None emptyDB ops = Some (un, full, if blocked then 2 else 0)
                                           /\ name = display full un) cs l.
Proof.
  intros U ops my blocked l db G. pose proof (Inv_drun U ops _ (Inv_empty U)) as V. change (Inv U db) in V.
  unfold getContacts in G. inv1 G. inv1 G. apply Ok_eq in G as <-. rename a0 into u.
  set (T := tsel (fun _ c => (cMy c =? u) && (cBlocked c =? (if blocked then 2 else 0))) (dbContacts db)).
  assert (F : forall c, follow U (decide my c) None emptyDB ops = cstate my c db) by (intros; symmetry; apply cstate_run).
  assert (IN : forall i r, In (i, r) T -> cstate my (cMapped r) db = Some (cUnmapped r, cFull r, if blocked then 2 else 0)).
  { intros i r I. apply In_tsel in I as [I P]. cbn [snd] in P. apply andb_prop in P as [P1 P2]. apply N.eqb_eq in P1. apply N.eqb_eq in P2.
    unfold cstate, uidOf. rewrite E0. rewrite (tmin_contact U db u (cMapped r) i r V I); [rewrite P2; reflexivity|].
    apply isContact_spec; auto. }
  exists (map (fun r => cMapped (snd r)) T). split; [|split].
  - destruct (iv_contacts _ _ V) as [_ [_ ND]].
    assert (NT : NoDup (map (fun r => (cMy (snd r), cMapped (snd r))) T)) by (apply NoDup_map_filter; exact ND).
    assert (SAME : map (fun r => (cMy (snd r), cMapped (snd r))) T = map (fun c => (u, c)) (map (fun r => cMapped (snd r)) T)).
    { rewrite map_map. apply map_ext_in. intros [i r] I. apply In_tsel in I as [_ P]. cbn [snd] in *.
      apply andb_prop in P as [P1 _]. apply N.eqb_eq in P1. congruence. }
    rewrite SAME in NT. apply NoDup_map_inv in NT. exact NT.
  - intros c. split.
    + intros I. apply in_map_iff in I as [[i r] [<- I]]. cbn [snd]. rewrite F. rewrite (IN i r I). eauto.
    + intros [un [full S]]. rewrite F in S. unfold cstate, uidOf in S. rewrite E0 in S.
      destruct (tmin _ _) as [[i r]|] eqn:TM; [|discriminate]. injection S as S1 S2 S3. apply tmin_some in TM as [I P]. cbn [snd] in P.
      apply isContact_spec in P as [P1 P2]. apply in_map_iff. exists (i, r). split; [exact P2|]. apply In_tsel. split; [exact I|].
      cbn [snd]. rewrite P1, S3, !N.eqb_refl. reflexivity.
  - assert (G : forall T', incl T' T -> Forall2 (fun c name => exists un full, follow U (decide my c) None emptyDB ops = Some (un, full, if blocked then 2 else 0)
                                           /\ name = display full un) (map (fun r => cMapped (snd r)) T') (map (fun r => display (cFull (snd r)) (cUnmapped (snd r))) T')).
    { induction T' as [|[i r] T' IH]; intros I; [constructor|]. cbn [map snd]. constructor.
      - exists (cUnmapped r), (cFull r). rewrite F, (IN i r (I _ (or_introl eq_refl))). auto.
      - apply IH. intros x X. apply I. now right. }
    apply G. apply incl_refl.
Qed.
Example C30_ex : let D := DAddContact exB (str "dan@b.de") (str "dan@b.de") (str "Dora") 0 in
  let db := exRun [D; DAddContact exB exC exC [] 2; DAddContact exA exC exC [] 2; DRemoveContact exA exC] in
  getContacts exU exB false db = Ok [str "Dora <dan@b.de>"] /\ getContacts exU exB true db = Ok [str "cat@b.de"] /\
  getContacts exU exA false db = Ok [] /\ getContacts exU exA true db = Ok [].
Proof. vm_compute. auto. Qed.

(* ------------------------------------------------------------------ *)
(* C32: the message-ID cache. *)
Theorem C32_cache : forall U ops my c l, getCache U my c (drun U ops emptyDB) = Ok l ->
  l = follow U (cacheSpec my c) [] emptyDB ops.
Proof.
  intros U ops my c l G. rewrite <- cache_run. unfold getCache in G. inv1 G. destruct a as [m k].
  apply Ok_eq in G as <-. apply pairIDs_ckey in E as [_ [_ K]]. unfold cacheOf. rewrite K. reflexivity.
Qed.
(* what pruning leaves: the list from the first occurrence of the pruning point *)
Theorem C32_since : forall x l, In x l -> exists pre post, l = pre ++ x :: post /\ ~ In x pre /\ since x l = x :: post.
Proof.
  intros x. induction l as [|y l IH]; [intros []|]. intros I. cbn [since]. destruct (beq y x) eqn:B.
  - apply beq_spec in B as ->. exists [], l. auto.
  - assert (NE : y <> x) by (intros ->; rewrite beq_refl in B; discriminate). destruct I as [->|I]; [contradiction|].
    destruct (IH I) as [pre [post [-> [N ->]]]]. exists (y :: pre), post. split; [reflexivity|]. split; [|reflexivity].
    intros [->|X]; contradiction.
Qed.
(* pruning at something that is not cached is refused and changes nothing *)
Theorem C32_prune_unknown : forall U ops my c x, let db := drun U ops emptyDB in
  ~ In x (cacheOf my c db) -> is_ok (dexec U (DRemoveCache my c x) db) = false.
Proof.
  intros U ops my c x db N. cbn [dexec]. destruct (removeCache U my c x db) eqn:E; try reflexivity.
  exfalso. apply N. unfold removeCache in E. inv1 E. inv1 E. inv1 E. inv1 E. destruct a3 as [m k].
  apply pairIDs_ckey in E3 as [_ [_ K]]. unfold cacheOf. rewrite K. destruct (tmin _ _) as [[e d]|] eqn:T; [|discriminate].
  apply tmin_some in T as [I P]. cbn [snd] in P. apply andb_prop in P as [P1 P2]. apply beq_spec in P2. unfold cacheRows.
  apply in_map_iff. exists (e, d). split; [exact P2|]. apply In_tsel. auto.
Qed.
Example C32_ex : let db := exRun [DAddCache exA exC (str "1"); DAddCache exA [] (str "9"); DAddCache exA exC (str "2"); DAddCache exA exC (str "3");
    DRemoveCache exA exC (str "2"); DAddCache exA exC (str "4"); DRemoveCache exA exC (str "1")] in
  getCache exU exA exC db = Ok [str "2"; str "3"; str "4"] /\ getCache exU exA [] db = Ok [str "9"] /\ getCache exU exB exC db = Ok [].
Proof. vm_compute. auto. Qed.

Print Assumptions C25_last_write_wins.
Print Assumptions C26_one_state_partial.
Print Assumptions C26_one_entry_partial.
Print Assumptions C26_submit.
Print Assumptions C26_not_dropped.
Print Assumptions C26_kept_forever.
Print Assumptions C26_refuted.
Print Assumptions C27_out_first.
Print Assumptions C27_out_order.
Print Assumptions C27_out_content.
Print Assumptions C27_in_first.
Print Assumptions C27_in_order.
Print Assumptions C28_exactly_once.
Print Assumptions C28_discard.
Print Assumptions C29_writes_partial.
Print Assumptions C29_reads.
Print Assumptions C29_delete.
Print Assumptions C29_fresh_user.
Print Assumptions C29_refuted.
Print Assumptions C30_last_decision.
Print Assumptions C30_lists.
Print Assumptions C32_cache.
Print Assumptions C32_since.
Print Assumptions C32_prune_unknown.
