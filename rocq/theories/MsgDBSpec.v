(* Behaviour of the message database over histories: contacts, caches, settings. *)
From Verif Require Import Base Base64Model Base64Proofs IdentityModel IdentityProofs Maps SqlModel SqlProofs
  MsgDBModel MsgDBProofs MsgDBQueue MsgDBView.
From Coq Require Import Sorting.Sorted.
Local Open Scope N_scope.

(* Follow a history with an abstract state: only operations that succeed count. *)
Fixpoint follow (U : Unicode) {S} (f : S -> dop -> S) (s : S) (db : msgdb) (ops : list dop) : S :=
  match ops with
  | [] => s
  | o :: ops' => follow U f (if is_ok (dexec U o db) then f s o else s) (dstep U db o) ops'
  end.
Lemma follow_sim (U : Unicode) {S} (f : S -> dop -> S) (abs : msgdb -> S) (P : msgdb -> Prop) :
  (forall db o, P db -> P (dstep U db o)) ->
  (forall db o db', P db -> dexec U o db = Ok db' -> abs db' = f (abs db) o) ->
  forall ops db, P db -> abs (drun U ops db) = follow U f (abs db) db ops.
Proof.
  intros HP HS. induction ops as [|o ops IH]; intros db V; [reflexivity|]. cbn [drun fold_left follow].
  change (fold_left (dstep U) ops (dstep U db o)) with (drun U ops (dstep U db o)).
  rewrite (IH _ (HP _ _ V)). f_equal. unfold dstep. destruct (dexec U o db) eqn:E; cbn [is_ok]; [|reflexivity..].
  eapply HS; eassumption.
Qed.

(* Which tables an operation leaves alone. *)
Lemma dexec_KV U o db db' : dexec U o db = Ok db' -> (forall k v, o <> DAddValue k v) -> dbKV db' = dbKV db.
Proof.
  destruct o; cbn [dexec]; intros H N.
  - elim (N key value); reflexivity.
  - unfold addNym in H. inv1 H. inv1 H. inv1 H. inv1 H. inv1 H. destruct (thas _ _); inv1 H; apply Ok_eq in H as <-; reflexivity.
  - unfold delNym in H. inv1 H. inv1 H. destruct a0. inv1 H. inv1 H. inv1 H. apply Ok_eq in H as <-. reflexivity.
  - unfold setUpkeepAll in H. invs H. apply Ok_eq in H as <-. reflexivity.
  - unfold setUpkeepAccounts in H. invs H. apply Ok_eq in H as <-. reflexivity.
  - unfold addContact in H. inv1 H. inv1 H. inv1 H. inv1 H. inv1 H. inv1 H. destruct (thas _ _); apply Ok_eq in H as <-; reflexivity.
  - unfold removeContact in H. invs H. apply Ok_eq in H as <-. reflexivity.
  - unfold addAccount in H. inv1 H. destruct a as [mI cI]. inv1 H. apply Ok_eq in H as <-. reflexivity.
  - unfold setAccountTime in H. inv1 H. destruct a as [mI cI]. apply Ok_eq in H as <-. reflexivity.
  - unfold setAccountLastMsg in H. inv1 H. destruct a as [mI cI]. apply Ok_eq in H as <-. reflexivity.
  - unfold addMessage in H. inv1 H. inv1 H. inv1 H. inv1 H. apply Ok_eq in H as <-. reflexivity.
  - apply Ok_eq in H as <-. reflexivity.
  - unfold delMessage in H. inv1 H. inv1 H. inv1 H. apply Ok_eq in H as <-. reflexivity.
  - unfold addOutQueue in H. inv1 H. inv1 H. inv1 H. apply Ok_eq in H as <-. reflexivity.
  - apply Ok_eq in H as <-. reflexivity.
  - unfold removeOutQueue in H. inv1 H. apply Ok_eq in H as <-. reflexivity.
  - unfold retractOutQueue in H. inv1 H. apply Ok_eq in H as <-. reflexivity.
  - apply Ok_eq in H as <-. reflexivity.
  - unfold clearResendOutQueue in H. inv1 H. inv1 H. apply Ok_eq in H as <-. reflexivity.
  - unfold addInQueue in H. inv1 H. destruct a as [mI cI]. apply Ok_eq in H as <-. reflexivity.
  - apply Ok_eq in H as <-. reflexivity.
  - unfold removeInQueue in H. inv1 H. inv1 H. inv1 H. inv1 H. apply Ok_eq in H as <-. reflexivity.
  - apply Ok_eq in H as <-. reflexivity.
  - unfold addCache in H. inv1 H. inv1 H. inv1 H. inv1 H. destruct a2. apply Ok_eq in H as <-. reflexivity.
  - unfold removeCache in H. inv1 H. inv1 H. inv1 H. inv1 H. destruct a2. destruct (tmin _ _) as [[e r]|]; [|discriminate].
    apply Ok_eq in H as <-. reflexivity.
Qed.

(* operations that may change the user and contact tables *)
Definition touchesNyms (o : dop) : bool :=
  match o with DAddNym _ _ _ | DDelNym _ | DSetUpkeepAll _ _ | DSetUpkeepAccounts _ _ => true | _ => false end.
Definition touchesContacts (o : dop) : bool :=
  match o with DAddContact _ _ _ _ _ | DRemoveContact _ _ | DDelNym _ => true | _ => false end.
Definition touchesIds (o : dop) : bool :=
  match o with DAddCache _ _ _ | DRemoveCache _ _ _ | DDelNym _ => true | _ => false end.
Lemma dexec_tables U o db db' : dexec U o db = Ok db' ->
  (touchesNyms o = false -> dbNyms db' = dbNyms db) /\
  (touchesContacts o = false -> dbContacts db' = dbContacts db) /\
  (touchesIds o = false -> dbIds db' = dbIds db).
Proof.
  destruct o; cbn [dexec touchesNyms touchesContacts touchesIds]; intros H.
  - unfold addValue in H. invs H. apply Ok_eq in H as <-. auto.
  - unfold addNym in H. inv1 H. inv1 H. inv1 H. inv1 H. inv1 H. destruct (thas _ _); inv1 H; apply Ok_eq in H as <-; repeat split; congruence.
  - repeat split; discriminate.
  - unfold setUpkeepAll in H. invs H. apply Ok_eq in H as <-. repeat split; congruence.
  - unfold setUpkeepAccounts in H. invs H. apply Ok_eq in H as <-. repeat split; congruence.
  - unfold addContact in H. inv1 H. inv1 H. inv1 H. inv1 H. inv1 H. inv1 H. destruct (thas _ _); apply Ok_eq in H as <-; repeat split; congruence.
  - unfold removeContact in H. invs H. apply Ok_eq in H as <-. repeat split; congruence.
  - unfold addAccount in H. inv1 H. destruct a as [mI cI]. inv1 H. apply Ok_eq in H as <-. auto.
  - unfold setAccountTime in H. inv1 H. destruct a as [mI cI]. apply Ok_eq in H as <-. auto.
  - unfold setAccountLastMsg in H. inv1 H. destruct a as [mI cI]. apply Ok_eq in H as <-. auto.
  - unfold addMessage in H. inv1 H. inv1 H. inv1 H. inv1 H. apply Ok_eq in H as <-. auto.
  - apply Ok_eq in H as <-. auto.
  - unfold delMessage in H. inv1 H. inv1 H. inv1 H. apply Ok_eq in H as <-. auto.
  - unfold addOutQueue in H. inv1 H. inv1 H. inv1 H. apply Ok_eq in H as <-. auto.
  - apply Ok_eq in H as <-. auto.
  - unfold removeOutQueue in H. inv1 H. apply Ok_eq in H as <-. auto.
  - unfold retractOutQueue in H. inv1 H. apply Ok_eq in H as <-. auto.
  - apply Ok_eq in H as <-. auto.
  - unfold clearResendOutQueue in H. inv1 H. inv1 H. apply Ok_eq in H as <-. auto.
  - unfold addInQueue in H. inv1 H. destruct a as [mI cI]. apply Ok_eq in H as <-. auto.
  - apply Ok_eq in H as <-. auto.
  - unfold removeInQueue in H. inv1 H. inv1 H. inv1 H. inv1 H. apply Ok_eq in H as <-. auto.
  - apply Ok_eq in H as <-. auto.
  - unfold addCache in H. inv1 H. inv1 H. inv1 H. inv1 H. destruct a2. apply Ok_eq in H as <-. repeat split; congruence.
  - unfold removeCache in H. inv1 H. inv1 H. inv1 H. inv1 H. destruct a2. destruct (tmin _ _) as [[e r]|]; [|discriminate].
    apply Ok_eq in H as <-. repeat split; congruence.
Qed.

(* ---------------- looking up users ---------------- *)
Definition uidOf (m : bytes) (db : msgdb) : option N := match qNymUID m db with Ok u => Some u | _ => None end.
Lemma uidOf_In U m db u : Inv U db -> (uidOf m db = Some u <-> exists n, In (u, n) (dbNyms db) /\ nMapped n = m).
Proof.
  intros V. unfold uidOf. split.
  - destruct (qNymUID m db) eqn:E; try discriminate. intros H; injection H as <-. apply qNymUID_ok; exact E.
  - intros [n [I <-]]. rewrite (qNymUID_intro U _ _ _ (iv_nyms _ _ V) I). reflexivity.
Qed.
Lemma uidOf_ext U m db db' : Inv U db -> Inv U db' ->
  (forall u, (exists n, In (u, n) (dbNyms db) /\ nMapped n = m) <-> (exists n, In (u, n) (dbNyms db') /\ nMapped n = m)) ->
  uidOf m db' = uidOf m db.
Proof.
  intros V V' H. destruct (uidOf m db) as [u|] eqn:E.
  - apply (uidOf_In U _ _ _ V') . apply H. apply (uidOf_In U _ _ _ V). exact E.
  - destruct (uidOf m db') as [u|] eqn:E'; [|reflexivity]. apply (uidOf_In U _ _ _ V') in E'. apply H in E'.
    apply (uidOf_In U _ _ _ V) in E'. congruence.
Qed.
Lemma uidOf_upd U m p f db : Inv U db -> Inv U (withNyms (tupd p f (dbNyms db)) db) ->
  (forall n, nMapped (f n) = nMapped n) -> uidOf m (withNyms (tupd p f (dbNyms db)) db) = uidOf m db.
Proof.
  intros V V' K. apply (uidOf_ext U); try assumption. intros u. cbn [withNyms dbNyms]. split.
  - intros [n [I E]]. destruct (p u n) eqn:P.
    + exists (f n). split; [|rewrite K; exact E]. apply In_tupd. exists (u, n). cbn [fst snd]. rewrite P. auto.
    + exists n. split; [|exact E]. apply In_tupd. exists (u, n). cbn [fst snd]. rewrite P. auto.
  - intros [n [I E]]. apply In_tupd in I as [[j x] [I R]]. cbn [fst snd] in R.
    destruct (p j x); injection R as -> ->; exists x; split; try exact I; try exact E. rewrite <- (K x). exact E.
Qed.
Lemma dexec_uid_not U o db db' m : Inv U db -> dexec U o db = Ok db' ->
  (forall u f, o <> DAddNym m u f) -> o <> DDelNym m -> uidOf m db' = uidOf m db.
Proof.
  intros V H NA ND. pose proof (Inv_dexec _ _ _ _ V H) as V'.
  destruct (touchesNyms o) eqn:T.
  2:{ destruct (dexec_tables _ _ _ _ H) as [A _]. unfold uidOf, qNymUID. rewrite (A T). reflexivity. }
  destruct o; try discriminate T; cbn [dexec] in H.
  - unfold addNym in H. inv1 H. inv1 H. inv1 H. inv1 H. inv1 H. destruct (thas _ _); inv1 H; apply Ok_eq in H as <-.
    + apply (uidOf_upd U); auto.
    + apply (uidOf_ext U); try assumption. intros u. cbn [withNyms dbNyms]. split.
      * intros [n [I E6]]. exists n. split; [apply In_tins; now left|exact E6].
      * intros [n [I E6]]. apply In_tins in I as [I|I]; [eauto|]. injection I as -> ->. cbn [nMapped] in E6.
        elim (NA unmappedID fullName). congruence.
  - unfold delNym in H. inv1 H. inv1 H. destruct a0. inv1 H. inv1 H. inv1 H. apply Ok_eq in H as <-.
    apply (uidOf_ext U); try assumption. intros u. cbn [cascadeNym cascadeMsgs withOut withMsgs dbNyms]. split.
    + intros [n [I E6]]. exists n. split; [|exact E6]. apply In_tdel. split; [exact I|]. cbn [fst]. apply N.eqb_neq.
      intros ->. apply ND. apply qNymUID_ok in E2 as [n' [J E7]].
      destruct (iv_nyms _ _ V) as [O _]. rewrite (idsOk_unique _ _ _ _ O I J) in E6. congruence.
    + intros [n [I E6]]. apply In_tdel in I as [I _]. eauto.
  - unfold setUpkeepAll in H. invs H. apply Ok_eq in H as <-. apply (uidOf_upd U); auto.
  - unfold setUpkeepAccounts in H. invs H. apply Ok_eq in H as <-. apply (uidOf_upd U); auto.
Qed.

(* adding a user that exists keeps its number; a new one gets a number no row uses *)
Lemma addNym_uid U m u f db db' : Inv U db -> addNym U m u f db = Ok db' ->
  (exists i, uidOf m db = Some i /\ uidOf m db' = Some i) \/
  (uidOf m db = None /\ uidOf m db' = Some (nextId (dbNyms db))).
Proof.
  intros V H. assert (V' : Inv U db') by (eapply Inv_addNym; eassumption). unfold addNym in H. inv1 H. inv1 H. inv1 H. inv1 H. inv1 H.
  destruct (thas _ _) eqn:TH; inv1 H; apply Ok_eq in H as <-.
  - left. apply thas_true in TH as [[i n] [I P]]. cbn [snd] in P. apply beq_spec in P. exists i.
    rewrite (uidOf_upd U) by auto. split; apply (uidOf_In U _ _ _ V); eauto.
  - right. split.
    + destruct (uidOf m db) as [i|] eqn:Q; [|reflexivity]. apply (uidOf_In U _ _ _ V) in Q as [n [I W]].
      pose proof (thas_false _ _ TH _ I) as R. cbn [snd] in R. rewrite W, beq_refl in R. discriminate.
    + apply (uidOf_In U _ _ _ V'). exists (mkNym m u f 0 0). split; [|reflexivity].
      cbn [withNyms dbNyms]. apply In_tins. now right.
Qed.
Lemma delNym_uid U m db db' : Inv U db -> delNym U m db = Ok db' -> uidOf m db' = None.
Proof.
  intros V H. assert (V' : Inv U db') by (eapply Inv_delNym; eassumption). unfold delNym in H.
  inv1 H. inv1 H. destruct a0. inv1 H. inv1 H. inv1 H. apply Ok_eq in H as <-.
  destruct (uidOf m _) as [i|] eqn:Q; [|reflexivity]. apply (uidOf_In U _ _ _ V') in Q as [n [I W]].
  cbn [cascadeNym cascadeMsgs withOut withMsgs dbNyms] in I. apply In_tdel in I as [I P]. cbn [fst] in P.
  apply N.eqb_neq in P. elim P. apply qNymUID_ok in E2 as [n' [J X]]. destruct (iv_nyms _ _ V) as [_ [_ ND]].
  assert (R : (i, n) = (a1, n')) by (apply (NoDup_key _ _ _ _ ND I J); cbn [snd]; congruence). congruence.
Qed.

(* ---------------- contacts ---------------- *)
(* what is recorded about contact c of user my: identity, full name, list *)
Definition cstate (my c : bytes) (db : msgdb) : option (bytes * bytes * N) :=
  match uidOf my db with
  | None => None
  | Some u => match tmin (fun _ r => isContact u c r) (dbContacts db) with
              | Some (_, r) => Some (cUnmapped r, cFull r, cBlocked r) | None => None end
  end.
Definition decide (my c : bytes) (s : option (bytes * bytes * N)) (o : dop) : option (bytes * bytes * N) :=
  match o with
  | DAddContact my' c' u f t => if beq my' my && beq c' c then Some (u, f, t) else s
  | DRemoveContact my' c' =>
      if beq my' my && beq c' c then match s with Some (u, f, _) => Some (u, f, 1) | None => None end else s
  | DDelNym my' => if beq my' my then None else s
  | _ => s
  end.
Lemma isContact_spec u c r : isContact u c r = true <-> cMy r = u /\ cMapped r = c.
Proof. unfold isContact. rewrite andb_true_iff, N.eqb_eq, beq_spec. reflexivity. Qed.
Lemma contact_unique U db u c i r j s : Inv U db -> In (i, r) (dbContacts db) -> In (j, s) (dbContacts db) ->
  isContact u c r = true -> isContact u c s = true -> (i, r) = (j, s).
Proof.
  intros V I J P Q. apply isContact_spec in P as [P1 P2]. apply isContact_spec in Q as [Q1 Q2].
  destruct (iv_contacts _ _ V) as [_ [_ ND]]. apply (NoDup_key _ _ _ _ ND I J). cbn [snd]. congruence.
Qed.
Lemma tmin_contact U db u c i r : Inv U db -> In (i, r) (dbContacts db) -> isContact u c r = true ->
  tmin (fun _ r => isContact u c r) (dbContacts db) = Some (i, r).
Proof.
  intros V I P. destruct (tmin _ _) as [[j s]|] eqn:E.
  - apply tmin_some in E as [J Q]. cbn [snd] in Q. f_equal. symmetry. eapply contact_unique; eassumption.
  - pose proof (tmin_none _ _ E _ I) as Q. cbn [snd] in Q. congruence.
Qed.
Lemma tmin_contact_none db u c : (forall i r, In (i, r) (dbContacts db) -> isContact u c r = false) ->
  tmin (fun _ r => isContact u c r) (dbContacts db) = None.
Proof. intros H. apply tmin_none_intro. intros [i r] I. cbn [snd]. eapply H; exact I. Qed.
Lemma fresh_no_contacts U db c : Inv U db -> tmin (fun _ r => isContact (nextId (dbNyms db)) c r) (dbContacts db) = None.
Proof.
  intros V. apply tmin_contact_none. intros i r I. destruct (isContact _ c r) eqn:P; [|reflexivity].
  apply isContact_spec in P as [P _]. destruct (iv_contacts _ _ V) as [_ [B _]]. rewrite Forall_forall in B.
  destruct (B _ I) as [X _]. cbn [snd] in X. unfold nkeys in X. apply in_map_iff in X as [x [E X]].
  pose proof (nextId_gt _ _ X). lia.
Qed.
Lemma cstate_addContact U my m u f t db db' my' c : Inv U db -> addContact U my m u f t db = Ok db' ->
  cstate my' c db' = if beq my my' && beq m c then Some (u, f, t) else cstate my' c db.
Proof.
  intros V H. assert (V' : Inv U db') by (eapply Inv_addContact; eassumption).
  assert (UE : uidOf my' db' = uidOf my' db)
    by (apply (dexec_uid_not U (DAddContact my m u f t)); [exact V|exact H|discriminate..]).
  unfold addContact in H. inv1 H. inv1 H. inv1 H. inv1 H. inv1 H. inv1 H. rename a4 into uid.
  assert (UM : uidOf my db = Some uid) by (unfold uidOf; rewrite E4; reflexivity).
  assert (NEW : exists i r, In (i, r) (dbContacts db') /\ isContact uid m r = true /\ cUnmapped r = u /\ cFull r = f /\ cBlocked r = t).
  { destruct (thas _ (dbContacts db)) eqn:TH; apply Ok_eq in H as <-; cbn [withContacts dbContacts].
    - apply thas_true in TH as [[i r] [I P]]. cbn [snd] in P. exists i, (mkContact (cMy r) (cMapped r) u f t).
      split; [apply In_tupd; exists (i, r); cbn [fst snd]; rewrite P; auto|]. split; [exact P|auto].
    - exists (nextId (dbContacts db)), (mkContact uid m u f t). split; [apply In_tins; now right|].
      split; [apply isContact_spec; auto|auto]. }
  assert (OTH : forall v d, (v = uid /\ d = m -> False) ->
     forall i r, isContact v d r = true -> (In (i, r) (dbContacts db') <-> In (i, r) (dbContacts db))).
  { intros v d NE i r P. apply isContact_spec in P as [P1 P2].
    destruct (thas _ (dbContacts db)) eqn:TH; apply Ok_eq in H as <-; cbn [withContacts dbContacts].
    - rewrite In_tupd. split.
      + intros [[j s] [J R]]. cbn [fst snd] in R. destruct (isContact uid m s) eqn:Q.
        * injection R as -> ->. apply isContact_spec in Q as [Q1 Q2]. cbn [cMy cMapped] in *. elim NE. split; congruence.
        * injection R as -> ->. exact J.
      + intros J. exists (i, r). cbn [fst snd]. destruct (isContact uid m r) eqn:Q; [|auto].
        apply isContact_spec in Q as [Q1 Q2]. elim NE. split; congruence.
    - rewrite In_tins. split; [|auto]. intros [J|J]; [exact J|]. injection J as -> ->. cbn [cMy cMapped] in *.
      elim NE. split; congruence. }
  unfold cstate. rewrite UE.
  destruct (beq my my' && beq m c) eqn:BB.
  - apply andb_prop in BB as [B1 B2]. apply beq_spec in B1 as <-. apply beq_spec in B2 as <-. rewrite UM.
    destruct NEW as [i [r [I [P [<- [<- <-]]]]]]. rewrite (tmin_contact U _ _ _ _ _ V' I P). reflexivity.
  - destruct (uidOf my' db) as [v|] eqn:UV; [|reflexivity].
    assert (NE : v = uid /\ c = m -> False).
    { intros [-> ->]. assert (my = my').
      { unfold uidOf in UM, UV. destruct (qNymUID my db) eqn:A1; try discriminate. destruct (qNymUID my' db) eqn:A2; try discriminate.
        injection UM as ->. injection UV as ->. eapply qNymUID_inj; try eassumption. apply iv_nyms with (1 := V). }
      subst my'. rewrite !beq_refl in BB. discriminate. }
    destruct (tmin (fun _ r => isContact v c r) (dbContacts db)) as [[i r]|] eqn:T.
    + apply tmin_some in T as [I P]. cbn [snd] in P.
      rewrite (tmin_contact U db' v c i r V'); [reflexivity| |exact P]. apply (OTH v c NE i r P); exact I.
    + rewrite tmin_contact_none; [reflexivity|]. intros i r I. destruct (isContact v c r) eqn:P; [|reflexivity].
      apply (OTH v c NE i r P) in I. pose proof (tmin_none _ _ T _ I) as Q. cbn [snd] in Q. congruence.
Qed.
Lemma tmin_upd {A} p q (f : A -> A) t : (forall i a, q i a = true -> p i (f a) = p i a) ->
  tmin p (tupd q f t) = match tmin p t with Some (i, a) => Some (i, if q i a then f a else a) | None => None end.
Proof.
  intros H. induction t as [|[i a] t IH]; [reflexivity|]. unfold tupd in *. cbn [map fst snd].
  destruct (q i a) eqn:Q; cbn [tmin fst snd].
  - rewrite (H _ _ Q). destruct (p i a); [|exact IH]. rewrite IH. destruct (tmin p t) as [[j b]|]; cbn [fst snd].
    + destruct (j <? i); [reflexivity|]. rewrite Q. reflexivity.
    + rewrite Q. reflexivity.
  - destruct (p i a); [|exact IH]. rewrite IH. destruct (tmin p t) as [[j b]|]; cbn [fst snd].
    + destruct (j <? i); [reflexivity|]. rewrite Q. reflexivity.
    + rewrite Q. reflexivity.
Qed.
Lemma cstate_removeContact U my m db db' my' c : Inv U db -> removeContact U my m db = Ok db' ->
  cstate my' c db' = if beq my my' && beq m c
                     then match cstate my' c db with Some (u, f, _) => Some (u, f, 1) | None => None end
                     else cstate my' c db.
Proof.
  intros V H.
  assert (UE : uidOf my' db' = uidOf my' db)
    by (apply (dexec_uid_not U (DRemoveContact my m)); [exact V|exact H|discriminate..]).
  unfold removeContact in H. inv1 H. inv1 H. inv1 H. rename a1 into uid. apply Ok_eq in H as <-.
  unfold cstate. rewrite UE. destruct (uidOf my' db) as [v|] eqn:UV; [|destruct (beq my my' && beq m c); reflexivity].
  cbn [withContacts dbContacts]. rewrite tmin_upd by reflexivity.
  destruct (tmin (fun _ r => isContact v c r) (dbContacts db)) as [[i r]|] eqn:T;
    [|destruct (beq my my' && beq m c); reflexivity].
  apply tmin_some in T as [I P]. cbn [snd] in P. apply isContact_spec in P as [P1 P2].
  assert (EQ : beq my my' && beq m c = isContact uid m r).
  { apply eq_true_iff_eq. rewrite andb_true_iff, !beq_spec, isContact_spec, P1, P2. split.
    - intros [<- <-]. split; [|reflexivity]. unfold uidOf in UV. rewrite E1 in UV. congruence.
    - intros [<- <-]. split; [|reflexivity]. unfold uidOf in UV. destruct (qNymUID my' db) eqn:A2; try discriminate.
      injection UV as ->. eapply qNymUID_inj; try eassumption. apply iv_nyms with (1 := V). }
  rewrite EQ. destruct (isContact uid m r); reflexivity.
Qed.
Lemma cstate_dexec U o db db' my c : Inv U db -> dexec U o db = Ok db' -> cstate my c db' = decide my c (cstate my c db) o.
Proof.
  intros V H. pose proof (dexec_tables _ _ _ _ H) as [_ [TC _]].
  assert (SAME : touchesContacts o = false -> (forall u f, o <> DAddNym my u f) -> cstate my c db' = cstate my c db).
  { intros T NA. unfold cstate. rewrite (TC T).
    rewrite (dexec_uid_not U o db db' my V H NA); [reflexivity|]. intros ->. discriminate T. }
  destruct o; cbn [decide dexec touchesContacts] in *; try (apply SAME; [reflexivity|discriminate]).
  - unfold cstate. rewrite (TC eq_refl). destruct (beq mappedID my) eqn:B.
    + apply beq_spec in B as ->. destruct (addNym_uid _ _ _ _ _ _ V H) as [[i [-> ->]]|[-> ->]]; [reflexivity|].
      rewrite (fresh_no_contacts U _ _ V). reflexivity.
    + apply beq_neq in B. rewrite (dexec_uid_not U (DAddNym mappedID unmappedID fullName) db db' my V H); [reflexivity| |discriminate].
      intros u f E. congruence.
  - destruct (beq mappedID my) eqn:B.
    + apply beq_spec in B as ->. unfold cstate. rewrite (delNym_uid _ _ _ _ V H). reflexivity.
    + apply beq_neq in B. unfold cstate.
      rewrite (dexec_uid_not U (DDelNym mappedID) db db' my V H) by (try discriminate; congruence).
      destruct (uidOf my db) as [v|] eqn:UV; [|reflexivity].
      unfold delNym in H. inv1 H. inv1 H. destruct a0. inv1 H. inv1 H. inv1 H. apply Ok_eq in H as <-.
      cbn [cascadeNym cascadeMsgs withOut withMsgs dbContacts].
      assert (NE : a1 <> v).
      { intros ->. apply B. unfold uidOf in UV. destruct (qNymUID my db) eqn:A2; try discriminate. injection UV as ->.
        eapply qNymUID_inj; try eassumption. apply iv_nyms with (1 := V). }
      replace (tmin (fun _ r => isContact v c r) (tdel (fun _ r => cMy r =? a1) (dbContacts db)))
        with (tmin (fun _ r => isContact v c r) (dbContacts db)); [reflexivity|].
      clear TC E3. induction (dbContacts db) as [|[i r] t IH]; [reflexivity|]. cbn [tmin tdel filter fst snd].
      destruct (N.eqb_spec (cMy r) a1) as [YR|NR]; cbn [negb].
      * replace (isContact v c r) with false; [exact IH|]. unfold isContact. symmetry. apply andb_false_iff. left.
        apply N.eqb_neq. congruence.
      * cbn [tmin fst snd]. unfold tdel in IH. rewrite IH. reflexivity.
  - eapply cstate_addContact; eassumption.
  - eapply cstate_removeContact; eassumption.
Qed.
Theorem cstate_run U ops my c : cstate my c (drun U ops emptyDB) = follow U (decide my c) None emptyDB ops.
Proof.
  change None with (cstate my c emptyDB).
  apply (follow_sim U (decide my c) (cstate my c) (Inv U)).
  - intros; now apply Inv_dstep.
  - intros; eapply cstate_dexec; eassumption.
  - apply Inv_empty.
Qed.

(* ---------------- the message-ID cache ---------------- *)
(* the numbers under which the rows of an account are kept *)
Definition ckey (my c : bytes) (db : msgdb) : option (N * N) :=
  match uidOf my db with
  | None => None
  | Some u => if isNil c then Some (u, 0)
              else match tmin (fun _ r => isContact u c r) (dbContacts db) with Some (i, _) => Some (u, i) | None => None end
  end.
Definition cacheRows (k : N * N) (db : msgdb) : list bytes :=
  map (fun r => dMsgID (snd r)) (tsel (fun _ d => isId (fst k) (snd k) d) (dbIds db)).
Definition cacheOf (my c : bytes) (db : msgdb) : list bytes :=
  match ckey my c db with None => [] | Some k => cacheRows k db end.
(* everything before the first occurrence of x goes *)
Fixpoint since (x : bytes) (l : list bytes) : list bytes :=
  match l with [] => [] | y :: l' => if beq y x then l else since x l' end.
Definition cacheSpec (my c : bytes) (s : list bytes) (o : dop) : list bytes :=
  match o with
  | DAddCache my' c' x => if beq my' my && beq c' c then s ++ [x] else s
  | DRemoveCache my' c' x => if beq my' my && beq c' c then since x s else s
  | DDelNym my' => if beq my' my then [] else s
  | _ => s
  end.

Lemma pairIDs_ckey U my c db k : pairIDs U my c db = Ok k <->
  mapped U my = true /\ (isNil c || mapped U c = true) /\ ckey my c db = Some k.
Proof.
  unfold pairIDs, ckey, uidOf, qContactUID. split.
  - intros H. inv1 H. inv1 H. inv1 H. inv1 H. rewrite E1. split; [exact E|]. split; [exact E0|].
    destruct (isNil c); [injection E2 as <-; apply Ok_eq in H as <-; reflexivity|].
    destruct (tmin _ _) as [[i r]|]; [|discriminate]. injection E2 as <-. apply Ok_eq in H as <-. reflexivity.
  - intros [-> [-> H]]. cbn [need rbind]. destruct (qNymUID my db); try discriminate. cbn [rbind].
    destruct (isNil c); [injection H as <-; reflexivity|]. destruct (tmin _ _) as [[i r]|]; [|discriminate].
    injection H as <-. reflexivity.
Qed.
Lemma nymOf_uid U my db u : Inv U db -> uidOf my db = Some u -> qNymUID my db = Ok u.
Proof. unfold uidOf. destruct (qNymUID my db); intros _ H; try discriminate. congruence. Qed.
Lemma uidOf_inj U a b db u : Inv U db -> uidOf a db = Some u -> uidOf b db = Some u -> a = b.
Proof.
  intros V A B. eapply qNymUID_inj; [eapply nymOf_uid; eassumption|eapply nymOf_uid; eassumption|apply iv_nyms with (1 := V)].
Qed.
Lemma ckey_inj U my c my' c' db k : Inv U db -> ckey my c db = Some k -> ckey my' c' db = Some k -> my = my' /\ c = c'.
Proof.
  intros V A B. unfold ckey in *. destruct (uidOf my db) as [u|] eqn:UA; [|discriminate].
  destruct (uidOf my' db) as [v|] eqn:UB; [|discriminate].
  destruct (isNil c) eqn:NC; destruct (isNil c') eqn:ND.
  - injection A as <-. injection B as ->. split; [eapply uidOf_inj; eassumption|].
    apply isNil_spec in NC. apply isNil_spec in ND. congruence.
  - destruct (tmin _ (dbContacts db)) as [[i r]|] eqn:T; [|discriminate]. injection A as <-. injection B as -> ->.
    apply tmin_some in T as [I _]. destruct (iv_contacts _ _ V) as [[_ P] _]. rewrite Forall_forall in P.
    pose proof (P 0 (in_map fst _ _ I)). lia.
  - destruct (tmin _ (dbContacts db)) as [[i r]|] eqn:T; [|discriminate]. injection A as <-. injection B as -> <-.
    apply tmin_some in T as [I _]. destruct (iv_contacts _ _ V) as [[_ P] _]. rewrite Forall_forall in P.
    pose proof (P 0 (in_map fst _ _ I)). lia.
  - destruct (tmin (fun _ r => isContact u c r) (dbContacts db)) as [[i r]|] eqn:T; [|discriminate].
    destruct (tmin (fun _ r => isContact v c' r) (dbContacts db)) as [[j s]|] eqn:T'; [|discriminate].
    injection A as <-. injection B as -> ->. split; [eapply uidOf_inj; eassumption|].
    apply tmin_some in T as [I P]. apply tmin_some in T' as [J Q]. cbn [snd] in P, Q.
    apply isContact_spec in P as [_ <-]. apply isContact_spec in Q as [_ <-].
    destruct (iv_contacts _ _ V) as [O _]. f_equal. eapply idsOk_unique; eassumption.
Qed.
Lemma contact_keep U o db db' my u c i r : Inv U db -> dexec U o db = Ok db' -> uidOf my db = Some u -> o <> DDelNym my ->
  In (i, r) (dbContacts db) -> isContact u c r = true -> exists r', In (i, r') (dbContacts db') /\ isContact u c r' = true.
Proof.
  intros V H UU ND I P. destruct (touchesContacts o) eqn:T.
  2:{ destruct (dexec_tables _ _ _ _ H) as [_ [A _]]. rewrite (A T). eauto. }
  destruct o; try discriminate T; cbn [dexec] in H.
  - unfold delNym in H. inv1 H. inv1 H. destruct a0. inv1 H. inv1 H. inv1 H. apply Ok_eq in H as <-.
    exists r. split; [|exact P]. cbn [cascadeNym cascadeMsgs withOut withMsgs dbContacts]. apply In_tdel. split; [exact I|].
    cbn [snd]. apply isContact_spec in P as [-> _]. apply N.eqb_neq. intros ->. apply ND. f_equal.
    eapply uidOf_inj; [exact V| |exact UU]. unfold uidOf. rewrite E2. reflexivity.
  - unfold addContact in H. inv1 H. inv1 H. inv1 H. inv1 H. inv1 H. inv1 H. destruct (thas _ _); apply Ok_eq in H as <-;
      cbn [withContacts dbContacts].
    + destruct (isContact a4 mappedID r) eqn:Q.
      * exists (mkContact (cMy r) (cMapped r) unmappedID fullName ctype). split; [|exact P].
        apply In_tupd. exists (i, r). cbn [fst snd]. rewrite Q. auto.
      * exists r. split; [|exact P]. apply In_tupd. exists (i, r). cbn [fst snd]. rewrite Q. auto.
    + exists r. split; [|exact P]. apply In_tins. now left.
  - unfold removeContact in H. inv1 H. inv1 H. inv1 H. apply Ok_eq in H as <-. cbn [withContacts dbContacts].
    destruct (isContact a1 contactID r) eqn:Q.
    + exists (mkContact (cMy r) (cMapped r) (cUnmapped r) (cFull r) 1). split; [|exact P].
      apply In_tupd. exists (i, r). cbn [fst snd]. rewrite Q. auto.
    + exists r. split; [|exact P]. apply In_tupd. exists (i, r). cbn [fst snd]. rewrite Q. auto.
Qed.
Lemma uid_keep U o db db' my u : Inv U db -> dexec U o db = Ok db' -> o <> DDelNym my -> uidOf my db = Some u -> uidOf my db' = Some u.
Proof.
  intros V H ND UU. destruct (touchesNyms o) eqn:T.
  2:{ destruct (dexec_tables _ _ _ _ H) as [A _]. unfold uidOf, qNymUID in *. rewrite (A T). exact UU. }
  destruct o; try discriminate T.
  - destruct (beq mappedID my) eqn:B.
    + apply beq_spec in B as ->. destruct (addNym_uid _ _ _ _ _ _ V H) as [[i [E ->]]|[E _]]; congruence.
    + apply beq_neq in B. rewrite (dexec_uid_not U _ _ _ _ V H); [exact UU| |discriminate]. intros; congruence.
  - rewrite (dexec_uid_not U _ _ _ _ V H); [exact UU|discriminate|exact ND].
  - rewrite (dexec_uid_not U _ _ _ _ V H); [exact UU|discriminate|exact ND].
  - rewrite (dexec_uid_not U _ _ _ _ V H); [exact UU|discriminate|exact ND].
Qed.
Lemma key_keep U o db db' my c k : Inv U db -> dexec U o db = Ok db' -> o <> DDelNym my -> ckey my c db = Some k -> ckey my c db' = Some k.
Proof.
  intros V H ND K. pose proof (Inv_dexec _ _ _ _ V H) as V'. unfold ckey in *. destruct (uidOf my db) as [u|] eqn:UU; [|discriminate].
  rewrite (uid_keep _ _ _ _ _ _ V H ND UU). destruct (isNil c); [exact K|].
  destruct (tmin _ (dbContacts db)) as [[i r]|] eqn:T; [|discriminate]. apply tmin_some in T as [I P]. cbn [snd] in P.
  destruct (contact_keep _ _ _ _ _ _ _ _ _ V H UU ND I P) as [r' [I' P']].
  rewrite (tmin_contact U _ _ _ _ _ V' I' P'). exact K.
Qed.
Lemma key_new U o db db' my c k : Inv U db -> dexec U o db = Ok db' -> ckey my c db = None -> ckey my c db' = Some k ->
  touchesIds o = false /\ cacheRows k db' = [].
Proof.
  intros V H K K'. pose proof (Inv_dexec _ _ _ _ V H) as V'. destruct (dexec_tables _ _ _ _ H) as [TN [TC TI]].
  destruct (touchesIds o) eqn:T.
  { exfalso. destruct o; try discriminate T.
    - destruct (beq mappedID my) eqn:B.
      + apply beq_spec in B as ->. unfold ckey in K'. rewrite (delNym_uid _ _ _ _ V H) in K'. discriminate.
      + apply beq_neq in B. unfold ckey in K, K'.
        rewrite (dexec_uid_not U (DDelNym mappedID) db db' my V H) in K' by (try discriminate; congruence).
        destruct (uidOf my db) as [v|] eqn:UV; [|discriminate]. destruct (isNil c); [discriminate|].
        destruct (tmin _ (dbContacts db)) as [[i r]|] eqn:T0; [discriminate|].
        destruct (tmin _ (dbContacts db')) as [[i r]|] eqn:T1; [|discriminate]. apply tmin_some in T1 as [I P].
        assert (In (i, r) (dbContacts db)).
        { cbn [dexec] in H. unfold delNym in H. inv1 H. inv1 H. destruct a0. inv1 H. inv1 H. inv1 H. apply Ok_eq in H as <-.
          cbn [cascadeNym cascadeMsgs withOut withMsgs dbContacts] in I. apply In_tdel in I as [I _]. exact I. }
        pose proof (tmin_none _ _ T0 _ H0). cbn [snd] in *. congruence.
    - unfold ckey, uidOf, qNymUID in *. rewrite (TN eq_refl), (TC eq_refl) in K'. congruence.
    - unfold ckey, uidOf, qNymUID in *. rewrite (TN eq_refl), (TC eq_refl) in K'. congruence. }
  split; [reflexivity|]. unfold cacheRows. rewrite (TI eq_refl). rewrite tsel_none; [reflexivity|].
  intros j d J. destruct (isId (fst k) (snd k) d) eqn:Q; [|reflexivity]. exfalso.
  unfold isId in Q. apply andb_prop in Q as [Q1 Q2]. apply N.eqb_eq in Q1. apply N.eqb_eq in Q2.
  destruct (iv_ids _ _ V) as [_ B]. rewrite Forall_forall in B. destruct (B _ J) as [B1 [B2 _]]. cbn [snd] in B1, B2.
  rewrite Q1 in B1, B2. rewrite Q2 in B2.
  unfold ckey in K, K'. destruct (uidOf my db) as [u|] eqn:UU.
  - assert (ND : o <> DDelNym my) by (intros ->; discriminate T).
    rewrite (uid_keep _ _ _ _ _ _ V H ND UU) in K'. destruct (isNil c); [discriminate|].
    destruct (tmin _ (dbContacts db)) as [[i r]|] eqn:T0; [discriminate|].
    destruct (tmin _ (dbContacts db')) as [[i r]|] eqn:T1; [|discriminate]. injection K' as <-. cbn [fst snd] in *.
    apply tmin_some in T1 as [I P]. cbn [snd] in P. destruct (iv_contacts _ _ V') as [O' _].
    destruct B2 as [->|B2].
    + destruct O' as [_ O']. rewrite Forall_forall in O'. pose proof (O' 0 (in_map fst _ _ I)). lia.
    + unfold ckeys in B2. apply in_map_iff in B2 as [[j' s] [E S]]. cbn [fst snd] in E. injection E as -> E.
      assert (PS : isContact u (cMapped s) s = true) by (apply isContact_spec; auto).
      destruct (contact_keep _ _ _ _ _ _ _ _ _ V H UU ND S PS) as [s' [S' PS']].
      assert (s' = r) by (eapply idsOk_unique; eassumption). subst s'.
      apply isContact_spec in P as [_ P]. apply isContact_spec in PS' as [_ PS'].
      pose proof (tmin_none _ _ T0 _ S) as F. cbn [snd] in F. rewrite <- P, PS', PS in F. discriminate.
  - destruct (uidOf my db') as [v|] eqn:UV; [|discriminate].
    assert (F : v = nextId (dbNyms db)).
    { destruct (touchesNyms o) eqn:TT.
      2:{ unfold uidOf, qNymUID in *. rewrite (TN eq_refl) in UV. congruence. }
      destruct o; try discriminate TT.
      - destruct (beq mappedID my) eqn:B0.
        + apply beq_spec in B0 as ->. destruct (addNym_uid _ _ _ _ _ _ V H) as [[i [E _]]|[E E']]; congruence.
        + apply beq_neq in B0. rewrite (dexec_uid_not U _ _ _ _ V H) in UV; [congruence| |discriminate]. intros; congruence.
      - discriminate T.
      - rewrite (dexec_uid_not U _ _ _ _ V H) in UV; [congruence|discriminate..].
      - rewrite (dexec_uid_not U _ _ _ _ V H) in UV; [congruence|discriminate..]. }
    assert (FK : fst k = v).
    { destruct (isNil c); [injection K' as <-; reflexivity|]. destruct (tmin _ _) as [[i r]|]; [|discriminate].
      injection K' as <-. reflexivity. }
    rewrite FK in B1. unfold nkeys in B1. apply in_map_iff in B1 as [x [E X]]. pose proof (nextId_gt _ _ X). lia.
Qed.

Lemma filter_all {A} (p : A -> bool) l : (forall x, In x l -> p x = true) -> filter p l = l.
Proof.
  induction l as [|x l IH]; intros H; [reflexivity|]. cbn [filter]. rewrite (H x (or_introl eq_refl)).
  rewrite IH; [reflexivity|]. intros y Y. apply H. now right.
Qed.
Lemma since_tdel u k x e d0 (t : tbl idRow) : idsOk t ->
  tmin (fun _ d => isId u k d && beq (dMsgID d) x) t = Some (e, d0) ->
  map (fun r => dMsgID (snd r)) (tsel (fun _ d => isId u k d) (tdel (fun i d => isId u k d && (i <? e)) t)) =
  since x (map (fun r => dMsgID (snd r)) (tsel (fun _ d => isId u k d) t)).
Proof.
  intros O T. rewrite tmin_find in T by exact O. induction t as [|[i d] t IH]; [discriminate|].
  assert (O' : idsOk t).
  { destruct O as [S P]. cbn [map] in *. inversion S; subst. inversion P; subst. split; assumption. }
  cbn [find fst snd] in T. unfold tsel, tdel in *. cbn [filter fst snd].
  destruct (isId u k d) eqn:Q; cbn [andb] in *.
  - destruct (beq (dMsgID d) x) eqn:B.
    + injection T as -> ->. rewrite N.ltb_irrefl. cbn [negb filter fst snd]. rewrite Q. cbn [map fst snd since].
      rewrite B. f_equal. f_equal. f_equal. apply filter_all. intros [j d'] J. cbn [fst snd].
      destruct O as [S _]. cbn [map fst] in S. inversion S as [|? ? ? F]; subst. rewrite Forall_forall in F.
      pose proof (F j (in_map fst _ _ J)) as L. replace (j <? e) with false by (symmetry; apply N.ltb_ge; lia).
      rewrite andb_false_r. reflexivity.
    + assert (L : i < e).
      { apply find_some in T as [J _]. destruct O as [S _]. cbn [map fst] in S. inversion S as [|? ? ? F]; subst.
        rewrite Forall_forall in F. exact (F e (in_map fst _ _ J)). }
      apply N.ltb_lt in L. rewrite L. cbn [negb map snd since]. rewrite B. apply IH; assumption.
  - cbn [negb filter fst snd]. rewrite Q. apply IH; assumption.
Qed.
Lemma cache_dexec U o db db' my c : Inv U db -> dexec U o db = Ok db' -> cacheOf my c db' = cacheSpec my c (cacheOf my c db) o.
Proof.
  intros V H. unfold cacheOf at 1.
  destruct (touchesIds o) eqn:T.
  2:{ assert (cacheSpec my c (cacheOf my c db) o = cacheOf my c db) as -> by (destruct o; try discriminate T; reflexivity).
      unfold cacheOf. destruct (dexec_tables _ _ _ _ H) as [_ [_ TI]].
      destruct (ckey my c db) as [k|] eqn:K.
      - rewrite (key_keep U o db db' my c k V H); [|intros ->; discriminate T|exact K].
        unfold cacheRows. rewrite (TI T). reflexivity.
      - destruct (ckey my c db') as [k|] eqn:K'; [|reflexivity]. eapply key_new; eassumption. }
  destruct o; try discriminate T; cbn [cacheSpec].
  - destruct (beq mappedID my) eqn:B.
    + apply beq_spec in B as ->. unfold ckey. rewrite (delNym_uid _ _ _ _ V H). reflexivity.
    + apply beq_neq in B. unfold cacheOf. destruct (ckey my c db) as [k|] eqn:K.
      * rewrite (key_keep U _ db db' my c k V H) by congruence.
        unfold cacheRows. cbn [dexec] in H. unfold delNym in H. inv1 H. inv1 H. destruct a0. inv1 H. inv1 H. inv1 H. apply Ok_eq in H as <-.
        cbn [cascadeNym cascadeMsgs withOut withMsgs dbIds]. f_equal. apply tsel_tdel_other.
        intros i d _ Q. apply N.eqb_eq in Q. unfold isId. apply andb_false_iff. left. apply N.eqb_neq. rewrite Q. intros W.
        apply B. unfold ckey in K. destruct (uidOf my db) as [u|] eqn:UU; [|discriminate].
        assert (fst k = u).
        { destruct (isNil c); [injection K as <-; reflexivity|]. destruct (tmin _ _) as [[? ?]|]; [|discriminate]. injection K as <-. reflexivity. }
        eapply uidOf_inj; [exact V| |exact UU]. unfold uidOf. rewrite E2. congruence.
      * destruct (ckey my c db') as [k|] eqn:K'; [|reflexivity]. destruct (key_new _ _ _ _ _ _ _ V H K K'). discriminate.
  - cbn [dexec] in H. pose proof H as H0. unfold addCache in H. inv1 H. inv1 H. inv1 H. inv1 H. destruct a2 as [mI cI]. apply Ok_eq in H.
    apply pairIDs_ckey in E2 as [_ [_ K0]].
    destruct (ckey my c db) as [k|] eqn:K.
    + rewrite (key_keep U (DAddCache myID contactID messageID) db db' my c k V H0) by (try discriminate; exact K).
      unfold cacheOf. rewrite K. subst db'. unfold cacheRows. cbn [withIds dbIds]. rewrite tsel_tins.
      destruct (isId (fst k) (snd k) _) eqn:Q.
      * unfold isId in Q. cbn [dMy dContact] in Q. apply andb_prop in Q as [Q1 Q2]. apply N.eqb_eq in Q1. apply N.eqb_eq in Q2.
        destruct k as [k1 k2]. cbn [fst snd] in Q1, Q2. subst k1 k2. destruct (ckey_inj _ _ _ _ _ _ _ V K0 K) as [-> ->].
        rewrite !beq_refl. cbn [andb]. rewrite map_app. reflexivity.
      * rewrite app_nil_r. destruct (beq myID my && beq contactID c) eqn:BB; [|reflexivity].
        apply andb_prop in BB as [B1 B2]. apply beq_spec in B1 as ->. apply beq_spec in B2 as ->.
        rewrite K0 in K. injection K as <-. unfold isId in Q. cbn [fst snd dMy dContact] in Q. rewrite !N.eqb_refl in Q. discriminate.
    + destruct (ckey my c db') as [k|] eqn:K'.
      * destruct (key_new _ (DAddCache myID contactID messageID) _ _ _ _ _ V H0 K K'). discriminate.
      * unfold cacheOf. rewrite K. destruct (beq myID my && beq contactID c) eqn:BB; [|reflexivity].
        apply andb_prop in BB as [B1 B2]. apply beq_spec in B1 as ->. apply beq_spec in B2 as ->. congruence.
  - cbn [dexec] in H. pose proof H as H0. unfold removeCache in H. inv1 H. inv1 H. inv1 H. inv1 H. destruct a2 as [mI cI].
    destruct (tmin _ _) as [[e d0]|] eqn:TM; [|discriminate]. apply Ok_eq in H.
    apply pairIDs_ckey in E2 as [_ [_ K0]].
    destruct (ckey my c db) as [k|] eqn:K.
    + rewrite (key_keep U (DRemoveCache myID contactID messageID) db db' my c k V H0) by (try discriminate; exact K).
      unfold cacheOf. rewrite K. subst db'. unfold cacheRows. cbn [withIds dbIds].
      destruct (beq myID my && beq contactID c) eqn:BB.
      * apply andb_prop in BB as [B1 B2]. apply beq_spec in B1 as ->. apply beq_spec in B2 as ->.
        rewrite K0 in K. injection K as <-. cbn [fst snd]. eapply since_tdel; [|exact TM]. apply iv_ids with (1 := V).
      * f_equal. apply tsel_tdel_other. intros i d _ Q. apply andb_prop in Q as [Q _]. unfold isId in *.
        destruct ((dMy d =? fst k) && (dContact d =? snd k)) eqn:Q'; [|reflexivity].
        apply andb_prop in Q as [Q1 Q2]. apply andb_prop in Q' as [Q3 Q4]. apply N.eqb_eq in Q1, Q2, Q3, Q4.
        destruct k as [k1 k2]. cbn [fst snd] in *. assert (K1 : ckey my c db = Some (mI, cI)) by congruence. clear K. rename K1 into K.
        destruct (ckey_inj _ _ _ _ _ _ _ V K0 K) as [-> ->]. rewrite !beq_refl in BB. discriminate.
    + destruct (ckey my c db') as [k|] eqn:K'.
      * destruct (key_new _ (DRemoveCache myID contactID messageID) _ _ _ _ _ V H0 K K'). discriminate.
      * unfold cacheOf. rewrite K. destruct (beq myID my && beq contactID c) eqn:BB; [|reflexivity].
        apply andb_prop in BB as [B1 B2]. apply beq_spec in B1 as ->. apply beq_spec in B2 as ->. congruence.
Qed.
Theorem cache_run U ops my c : cacheOf my c (drun U ops emptyDB) = follow U (cacheSpec my c) [] emptyDB ops.
Proof.
  change (@nil bytes) with (cacheOf my c emptyDB).
  apply (follow_sim U (cacheSpec my c) (cacheOf my c) (Inv U)).
  - intros; now apply Inv_dstep.
  - intros; eapply cache_dexec; eassumption.
  - apply Inv_empty.
Qed.

(* ---------------- settings ---------------- *)
Definition lastWrite (k : bytes) (s : bytes) (o : dop) : bytes :=
  match o with DAddValue k' v => if beq k' k then v else s | _ => s end.
Definition kvOf (k : bytes) (db : msgdb) : bytes := match mget k (dbKV db) with Some v => v | None => [] end.
Theorem kv_run U ops k : kvOf k (drun U ops emptyDB) = follow U (lastWrite k) [] emptyDB ops.
Proof.
  change (@nil N) with (kvOf k emptyDB).
  apply (follow_sim U (lastWrite k) (kvOf k) (fun _ => True)); auto.
  intros db o db' _ H. destruct o; try (unfold kvOf, lastWrite; rewrite (dexec_KV _ _ _ _ H) by discriminate; reflexivity).
  cbn [dexec] in H. unfold addValue in H. inv1 H. inv1 H. apply Ok_eq in H as <-. unfold kvOf, lastWrite. cbn [withKV dbKV].
  rewrite mget_mset. destruct (beq key k) eqn:B.
  - apply beq_spec in B as ->. rewrite beq_refl. reflexivity.
  - destruct (beq k key) eqn:B'; [|reflexivity]. apply beq_spec in B' as ->. rewrite beq_refl in B. discriminate.
Qed.
