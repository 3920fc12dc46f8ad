(* C157-C162: creating, switching and deleting the user's nyms. *)
From Verif Require Import Base Base64Model Base64Proofs IdentityModel Maps SqlModel SqlProofs MsgDBModel MsgDBProofs MsgDBSteps HashChainModel IdentityProofs NymModel.
Delimit Scope string_scope with string.
Local Open Scope N_scope.

(* ------------------------------------------------------------------ *)
(* reasoning about commands *)
Lemma mbind_ok {A B} (m : M A) (f : A -> M B) w b w' : mbind m f w = (Ok b, w') -> exists a w1, m w = (Ok a, w1) /\ f a w1 = (Ok b, w').
Proof. unfold mbind. destruct (m w) as [[a|s|] w1] eqn:E; intros H; try discriminate H. eauto. Qed.
Definition pres (R : world -> world -> Prop) {A} (m : M A) : Prop := forall w, R w (snd (m w)).
Section Pres.
  Variable R : world -> world -> Prop.
  Hypothesis Rr : forall w, R w w.
  Hypothesis Rt : forall a b c, R a b -> R b c -> R a c.
  Lemma pres_bind {A B} (m : M A) (f : A -> M B) : pres R m -> (forall a, pres R (f a)) -> pres R (mbind m f).
  Proof.
    intros P Q w. unfold mbind. specialize (P w). destruct (m w) as [[a|s|] w1]; cbn [snd] in *; try exact P.
    eapply Rt; [exact P|apply Q].
  Qed.
  Lemma pres_ret {A} (a : A) : pres R (mret a). Proof. intros w. apply Rr. Qed.
  Lemma pres_fail {A} e : pres R (@mfail A e). Proof. intros w. apply Rr. Qed.
  Lemma pres_lift {A} (r : res A) : pres R (mlift r). Proof. intros w. apply Rr. Qed.
  Lemma pres_get {A} (f : world -> A) : pres R (mget_ f). Proof. intros w. apply Rr. Qed.
  Lemma pres_mod f : (forall w, R w (f w)) -> pres R (mmod f). Proof. intros H w. apply H. Qed.
  Lemma pres_liftw {A} (g : world -> res A) : pres R (fun w => mlift (g w) w). Proof. intros w. apply Rr. Qed.
  Lemma pres_onDB f : (forall w d, f (nDB w) = Ok d -> R w (setDB d w)) -> pres R (onDB f).
  Proof. intros H w. unfold onDB. destruct (f (nDB w)) eqn:E; cbn [snd]; [now apply H|apply Rr|apply Rr]. Qed.
  Lemma pres_serve r h ok eff a b : (forall w, spendable h w = true -> ok w = true -> R w (eff w)) -> pres R (serve r h ok eff a b).
  Proof.
    intros H w. unfold serve. destruct (spendable h w) eqn:S, (ok w) eqn:O; cbn [andb]; destruct r; cbn [snd]; try apply Rr; now apply H.
  Qed.
End Pres.

(* ------------------------------------------------------------------ *)
(* what a successful uid new leaves *)
Lemma getTok_ok u o w t w' : getTok u o w = (Ok (Some t), w') -> o = TGet /\
  (exists k, find (usableFor u) (nTok w) = Some k /\ kHash k = t) /\ w' = setTok (map (setLocked true t) (nTok w)) w.
Proof.
  unfold getTok. destruct o; [|discriminate|intros H; discriminate H].
  intros H. apply mbind_ok in H as [k [w1 [E H]]]. injection E as <- <-. destruct (find _ _) as [k|]; [|discriminate H].
  apply mbind_ok in H as [[] [w2 [E H]]]. injection E as <-. injection H as <- <-. split; [reflexivity|]. split; [eauto|reflexivity].
Qed.
Lemma serve_ready r h ok eff a b w w' : serve r h ok eff a b w = (Ok AReady, w') -> r = Served /\ spendable h w = true /\ ok w = true /\ w' = eff w.
Proof.
  unfold serve. destruct r; try (intros H; discriminate H). destruct (spendable h w && ok w) eqn:E; intros H; [|discriminate H].
  apply andb_prop in E as [-> ->]. injection H as <-. auto.
Qed.
Lemma serve_ok r h ok eff a b w : exists x w', serve r h ok eff a b w = (Ok x, w').
Proof. unfold serve. destruct r; eauto. destruct (_ && _); eauto. Qed.
Lemma keyInit_ok e id ce al w w' : keyInitAndQuit e id ce al w = (Ok tt, w') -> exists k r,
  ce = None /\ al = true /\ neInit e = Served /\ neQuit e = true /\ find (usableFor (str "Message")) (nTok w) = Some k /\ privUID id w = Some r /\
  spendable (kHash k) w = true /\ isRegKey id (pKey r) w = true /\
  w' = mkWorld (nDB w) (nPriv w) ((id, pKey r) :: nKeys w) (nNext w) (nReg w) ((id, pKey r) :: nInit w) (nAcct w)
         (filter (fun t => negb (beq (kHash t) (kHash k))) (map (setLocked true (kHash k)) (nTok w))) (kHash k :: nSpent w).
Proof.
  unfold keyInitAndQuit. intros H. apply mbind_ok in H as [t [w1 [E H]]]. destruct t as [h|]; [|discriminate H].
  apply getTok_ok in E as [_ [[k [F <-]] ->]].
  apply mbind_ok in H as [a [w2 [E H]]].
  destruct al; [|injection E as <- <-; apply mbind_ok in H as [[] [w3 [_ H]]]; discriminate H].
  unfold addKeyInit in E. apply mbind_ok in E as [r [w3 [E G]]]. injection E as <- <-.
  change (privUID id (setTok (map (setLocked true (kHash k)) (nTok w)) w)) with (privUID id w) in G.
  destruct (privUID id w) as [r|] eqn:P; [|injection G as <- <-; discriminate H].
  apply mbind_ok in G as [b [w3 [E G]]].
  destruct b; [|injection G as <- <-; discriminate H|injection G as <- <-; apply mbind_ok in H as [[] [w4 [_ H]]]; discriminate H].
  apply serve_ready in E as [SV [SP [RK ->]]]. apply mbind_ok in G as [[] [w4 [E G]]]. injection E as <-. injection G as <- <-.
  apply mbind_ok in H as [[] [w5 [E H]]]. injection E as <-. cbn [live negb] in H.
  destruct (neQuit e) eqn:Q; [|discriminate H]. cbn [negb] in H. destruct ce; [discriminate H|]. injection H as <-.
  exists k, r. repeat split; auto.
Qed.
Lemma newUID_ok e id w w' : mutecryptNewUID e id w = (Ok tt, w') -> exists k2 k3 r,
  find (usableFor (str "UID")) (nTok w) = Some k2 /\ spendable (kHash k2) w = true /\
  find (usableFor (str "Message")) (filter (fun t => negb (beq (kHash t) (kHash k2))) (map (setLocked true (kHash k2)) (nTok w))) = Some k3 /\
  spendable (kHash k3) (addReg id (pKey r) (kHash k2) w) = true /\
  privUID id (addRow id w) = Some r /\ pReplied r = false /\ isReg id w = false /\
  neStart e = true /\ neGen e = LOk /\ neCaps e = true /\ neReg e = Served /\ neInit e = Served /\ neQuit e = true /\
  w' = mkWorld (nDB w) (map (fun x => if pKey x =? pKey r then mkRow (pId x) (pKey x) true else x) (nPriv w ++ [mkRow id (nNext w) false]))
         ((id, pKey r) :: nKeys w) (nNext w + 1) ((id, pKey r) :: nReg w) ((id, pKey r) :: nInit w) (nAcct w)
         (filter (fun t => negb (beq (kHash t) (kHash k3))) (map (setLocked true (kHash k3))
           (filter (fun t => negb (beq (kHash t) (kHash k2))) (map (setLocked true (kHash k2)) (nTok w))))) (kHash k3 :: kHash k2 :: nSpent w).
Proof.
  unfold mutecryptNewUID. destruct (neStart e) eqn:ST; [|discriminate]. cbn [negb]. intros H.
  apply mbind_ok in H as [a [w1 [E H]]]. unfold generate in E. destruct (neGen e) eqn:GE;
    [|injection E as <- <-; discriminate H|injection E as <- <-; discriminate H].
  apply mbind_ok in E as [[] [w2 [E G]]]. injection E as <-. injection G as <- <-.
  destruct (neCaps e) eqn:CA; [|discriminate H]. cbn [negb] in H.
  apply mbind_ok in H as [t [w1 [E H]]]. destruct t as [h|]; [|discriminate H].
  apply getTok_ok in E as [_ [[k2 [F2 <-]] ->]]. change (nTok (addRow id w)) with (nTok w) in *.
  apply mbind_ok in H as [a [w2 [E H]]].
  unfold register in E. apply mbind_ok in E as [r [w3 [E G]]]. injection E as <- <-.
  change (privUID id (setTok (map (setLocked true (kHash k2)) (nTok w)) (addRow id w))) with (privUID id (addRow id w)) in G.
  destruct a as [|s|].
  - destruct (privUID id (addRow id w)) as [r|] eqn:P; [|discriminate G].
    destruct (pReplied r) eqn:PR; [discriminate G|].
    apply mbind_ok in G as [b [w3 [E G]]]. destruct b; [|discriminate G|discriminate G].
    apply serve_ready in E as [SV [SP [RK ->]]]. apply mbind_ok in G as [[] [w4 [E G]]]. injection E as <-. injection G as <-.
    apply mbind_ok in H as [[] [w5 [E H]]]. injection E as <-. cbn [live] in H.
    apply keyInit_ok in H as [k3 [r' [_ [_ [IN [QU [F3 [P' [SP3 [_ ->]]]]]]]]]].
    assert (PK : pKey r' = pKey r).
    { revert P P'. unfold privUID. cbn [setTok nPriv setReply setPrivs addReg].
      generalize (nPriv (addRow id w)). clear. intros l. induction l as [|x l IH]; cbn [find map]; [discriminate|].
      assert (X : isId id (if pKey x =? pKey r then mkRow (pId x) (pKey x) true else x) = isId id x) by (now destruct (pKey x =? pKey r)).
      rewrite X. destruct (isId id x); [|exact IH]. intros A B. injection A as ->. injection B as <-.
      now destruct (pKey r =? pKey r). }
    exists k2, k3, r. repeat split; auto.
    + now apply negb_true_iff in RK.
    + rewrite PK. reflexivity.
  - apply mbind_ok in H as [[] [w5 [_ H]]]. apply mbind_ok in H as [d [w6 [_ H]]]. destruct d; [|discriminate H|].
    + now apply keyInit_ok in H as [? [? [? _]]].
    + now apply keyInit_ok in H as [? [? [? _]]].
  - apply mbind_ok in H as [[] [w5 [_ H]]]. now apply keyInit_ok in H as [? [? [_ [? _]]]].
Qed.
Lemma filter_locked b h l : filter (fun t => negb (beq (kHash t) h)) (map (setLocked b h) l) = filter (fun t => negb (beq (kHash t) h)) l.
Proof.
  induction l as [|t l IH]; [reflexivity|]. cbn [map filter].
  assert (X : kHash (setLocked b h t) = kHash t) by (unfold setLocked; now destruct (beq _ _)). rewrite X.
  destruct (beq (kHash t) h) eqn:E; cbn [negb]; [exact IH|]. rewrite IH. f_equal. unfold setLocked. now rewrite E.
Qed.
Lemma filter_two h1 h2 l : filter (fun t => negb (beq (kHash t) h2)) (filter (fun t => negb (beq (kHash t) h1)) l) =
  filter (fun t => negb (beq (kHash t) h1) && negb (beq (kHash t) h2)) l.
Proof.
  induction l as [|t l IH]; [reflexivity|]. cbn [filter]. destruct (beq (kHash t) h1) eqn:E; cbn [negb andb filter]; [exact IH|].
  destruct (beq (kHash t) h2); cbn [negb]; rewrite IH; reflexivity.
Qed.
Lemma find_usable u l k : find (usableFor u) l = Some k -> In (mkTok (kHash k) u false) l /\ kUsage k = u /\ kLocked k = false.
Proof.
  intros F. apply find_some in F as [I P]. unfold usableFor in P. apply andb_prop in P as [L V]. apply beq_spec in V. apply negb_true_iff in L.
  destruct k as [h v b]. cbn [kHash kUsage kLocked] in *. subst. auto.
Qed.
Lemma mapPlus_imap U i id d : mapPlus U i = Ok (id, d) -> imap U i = Ok id.
Proof.
  unfold mapPlus, imap. destruct (_ <? _); [discriminate|]. destruct (split i) as [[lp dm]|s|]; cbn [rbind]; [|discriminate|discriminate].
  destruct (mapLocalpart U lp) as [x|s|]; cbn [rbind]; [|discriminate|discriminate]. intros H. injection H as <- _. reflexivity.
Qed.
Lemma unknownNym U id db u f : Inv U db -> getNym U id db = Ok (u, f) -> isNil u = true ->
  mapped U id = true /\ tmin (fun _ n => beq (nMapped n) id) (dbNyms db) = None.
Proof.
  intros V G N. unfold getNym in G. apply dbind_ok in G as [x [MP G]]. apply need_ok in MP. split; [exact MP|].
  apply Ok_eq in G. destruct (tmin _ _) as [[i n]|] eqn:T; [|reflexivity]. exfalso.
  apply tmin_some in T as [I _]. destruct (iv_nyms _ _ V) as [_ [F _]]. rewrite Forall_forall in F. destruct (F _ I) as [_ [_ NE]].
  cbn [snd] in NE. apply isNil_spec in N. congruence.
Qed.
Lemma addNym_new U id u f db db' : Inv U db -> tmin (fun _ n => beq (nMapped n) id) (dbNyms db) = None -> addNym U id u f db = Ok db' ->
  db' = withNyms (tins (mkNym id u f 0 0) (dbNyms db)) db.
Proof.
  intros V T H. unfold addNym in H. apply dbind_ok in H as [? [_ H]]. apply dbind_ok in H as [? [_ H]]. apply dbind_ok in H as [? [_ H]].
  apply dbind_ok in H as [m [E H]]. apply dbind_ok in H as [? [_ H]].
  assert (X : thas (fun _ n => beq (nMapped n) id) (dbNyms db) = false).
  { destruct (thas _ _) eqn:X; [|reflexivity]. apply thas_true in X as [r [I P]]. pose proof (tmin_none _ _ T _ I) as Q. cbn beta in *. congruence. }
  rewrite X in H. apply dbind_ok in H as [? [_ H]]. now apply Ok_eq in H.
Qed.
Lemma find_app_none {A} (p : A -> bool) l m : find p l = None -> find p (l ++ m) = find p m.
Proof. induction l as [|x l IH]; cbn [find app]; [reflexivity|]. destruct (p x); [discriminate|exact IH]. Qed.
Lemma tmin_new {A} p (t : tbl A) a : idsOk t -> tmin p t = None -> p (nextId t) a = true -> tmin p (tins a t) = Some (nextId t, a).
Proof.
  intros O N P. rewrite tmin_find by now apply idsOk_tins. rewrite tmin_find in N by exact O. unfold tins.
  rewrite (find_app_none _ _ _ N). cbn [find fst snd]. now rewrite P.
Qed.
Theorem C157_new : forall U accd e unm full minD maxD w w', Inv U (nDB w) -> wfb (nePriv e) -> wfb (neSecret e) ->
  uidNew U accd e unm full minD maxD w = (Ok tt, w') ->
  exists id d n h1 h2 h3 active,
    mapPlus U unm = Ok (id, d) /\ getNym U id (nDB w) = Ok ([], []) /\ (forall m, ~ In (id, m) (nReg w)) /\
    getNym U id (nDB w') = Ok (unm, full) /\
    getAccount U id [] (nDB w') = Ok (array64 (nePriv e), neServer e, array64 (neSecret e), minD, maxD, 0%Z) /\ In (nePriv e) (nAcct w') /\
    In (id, n) (nReg w') /\ In (mkRow id n true) (nPriv w') /\ In (id, n) (nInit w') /\ In (id, n) (nKeys w') /\
    In (mkTok h1 accd false) (nTok w) /\ In (mkTok h2 (str "UID") false) (nTok w) /\ In (mkTok h3 (str "Message") false) (nTok w) /\ NoDup [h1; h2; h3] /\
    (forall h, In h [h1; h2; h3] -> ~ In h (nSpent w)) /\ nSpent w' = [h3; h2; h1] ++ nSpent w /\
    nTok w' = filter (fun t => negb (existsb (beq (kHash t)) [h1; h2; h3])) (nTok w) /\
    getValue (str "ActiveUID") (nDB w) = Ok active /\ getValue (str "ActiveUID") (nDB w') = Ok (if isNil active then unm else active).
Proof.
  intros U accd e unm full minD maxD w w' V WP WS H. unfold uidNew in H.
  apply mbind_ok in H as [[id d] [w1 [E H]]]. injection E as MP <-.
  apply mbind_ok in H as [[] [w1 [E H]]]. injection E as _ <-.
  apply mbind_ok in H as [[old of] [w1 [E H]]]. injection E as GN <-.
  destruct (isNil old) eqn:NO; [|discriminate H]. cbn [negb] in H.
  apply mbind_ok in H as [fo [w1 [E H]]]. injection E as <- <-. destruct (neSearch e && isReg id w); [discriminate H|].
  apply mbind_ok in H as [t [w1 [E H]]]. destruct t as [h|]; [|discriminate H]. apply getTok_ok in E as [_ [[k1 [F1 <-]] ->]].
  apply mbind_ok in H as [a [w1 [E H]]]. destruct a; [| |discriminate H].
  2: { apply mbind_ok in H as [[] [w2 [_ H]]]. discriminate H. }
  unfold payAccount in E. apply serve_ready in E as [_ [SP1 [_ ->]]].
  apply mbind_ok in H as [[] [w1 [E H]]]. injection E as <-.
  apply mbind_ok in H as [[] [w1 [E H]]]. injection E as _ <-.
  apply mbind_ok in H as [[] [w1 [E H]]].
  apply newUID_ok in E as [k2 [k3 [r [F2 [SP2 [F3 [SP3 [PR [RP [NR [_ [_ [_ [_ [_ [_ ->]]]]]]]]]]]]]]]].
  cbn [setTok addAcct nDB nPriv nKeys nNext nReg nInit nAcct nTok nSpent addReg] in *.
  rewrite !filter_locked in *.
  destruct (unknownNym _ _ _ _ _ V GN NO) as [MM TN].
  apply mbind_ok in H as [[] [w1 [E H]]]. unfold onDB in E. cbn [nDB] in E.
  destruct (addNym U id unm full (nDB w)) as [db1|s|] eqn:AN; [|discriminate E|discriminate E]. injection E as <-.
  assert (V1 := Inv_addNym _ _ _ _ _ _ V AN).
  apply (addNym_new _ _ _ _ _ _ V TN) in AN.
  apply mbind_ok in H as [[] [w1 [E H]]]. unfold onDB in E. cbn [nDB setDB] in E.
  destruct (addAccount U id [] (nePriv e) (neServer e) (neSecret e) minD maxD db1) as [db2|s|] eqn:AA; [|discriminate E|discriminate E]. injection E as <-.
  assert (V2 := Inv_addAccount _ _ _ _ _ _ _ _ _ _ V1 AA).
  apply mbind_ok in H as [active [w1 [E H]]]. cbn [nDB setDB] in E. unfold mlift in E. apply pair_equal_spec in E as [GV <-].
  assert (Q1 : qNymUID id db1 = Ok (nextId (dbNyms (nDB w)))).
  { unfold qNymUID. subst db1. cbn [withNyms dbNyms]. rewrite tmin_new; [reflexivity| |exact TN|apply beq_refl]. apply (iv_nyms _ _ V). }
  assert (AD : exists row, db2 = withAccounts (tins row (dbAccounts db1)) db1 /\ tmin (fun _ a => isAcc (nextId (dbNyms (nDB w))) 0 a) (dbAccounts db1) = None /\
    row = mkAcc (nextId (dbNyms (nDB w))) 0 (b64enc (nePriv e)) (neServer e) (b64enc (neSecret e)) minD maxD 0 0).
  { unfold addAccount, pairIDs in AA. unfold mapped in MM. unfold mapped in AA. rewrite MM in AA. cbn [need rbind isNil orb] in AA. rewrite Q1 in AA. cbn [rbind] in AA.
    destruct (thas _ _) eqn:TH in AA; [discriminate AA|]. cbn [negb need rbind] in AA. apply Ok_eq in AA. eexists. split; [symmetry; exact AA|].
    split; [|reflexivity]. apply tmin_none_intro. intros s I. exact (thas_false _ _ TH _ I). }
  destruct AD as [row [-> [TA ->]]].
  assert (DBF : exists kv, nDB w' = withKV kv (withAccounts (tins (mkAcc (nextId (dbNyms (nDB w))) 0 (b64enc (nePriv e)) (neServer e) (b64enc (neSecret e)) minD maxD 0 0) (dbAccounts db1)) db1) /\
     getValue (str "ActiveUID") (nDB w') = Ok (if isNil active then unm else active) /\ w' = setDB (nDB w') (mkWorld (nDB w) (map (fun x => if pKey x =? pKey r then mkRow (pId x) (pKey x) true else x) (nPriv w ++ [mkRow id (nNext w) false]))
         ((id, pKey r) :: nKeys w) (nNext w + 1) ((id, pKey r) :: nReg w) ((id, pKey r) :: nInit w) (nePriv e :: nAcct w)
         (filter (fun t => negb (beq (kHash t) (kHash k3))) (filter (fun t => negb (beq (kHash t) (kHash k2))) (filter (fun t => negb (beq (kHash t) (kHash k1))) (nTok w)))) (kHash k3 :: kHash k2 :: kHash k1 :: nSpent w))).
  { destruct (isNil active) eqn:NA.
    - unfold onDB in H. cbn [nDB setDB] in H. unfold addValue in H. destruct (negb (isNil unm)) eqn:NU; [|discriminate H].
      cbn [activeKey] in H. change (negb (isNil activeKey)) with true in H. cbn [need rbind] in H. injection H as <-. cbn [nDB setDB].
      eexists. split; [reflexivity|]. split; [|reflexivity]. unfold getValue. change (negb (isNil (str "ActiveUID"))) with true. cbn [need rbind withKV withAccounts dbKV].
      unfold activeKey. rewrite mget_mset_same. reflexivity.
    - injection H as <-. cbn [nDB setDB]. exists (dbKV db1). split; [reflexivity|]. split; [etransitivity; [|exact GV]; reflexivity|reflexivity]. }
  destruct DBF as [kv [DB' [GV' W']]]. clear H.
  exists id, d, (pKey r), (kHash k1), (kHash k2), (kHash k3), active.
  assert (L1 := find_usable _ _ _ F1). assert (L2 := find_usable _ _ _ F2). assert (L3 := find_usable _ _ _ F3).
  destruct L1 as [I1 _], L2 as [I2 _], L3 as [I3 _].
  apply filter_In in I2 as [I2 N2]. apply filter_In in I3 as [I3 N3]. apply filter_In in I3 as [I3 N3'].
  cbn [kHash] in N2, N3, N3'.
  apply negb_true_iff, beq_neq in N2. apply negb_true_iff, beq_neq in N3. apply negb_true_iff, beq_neq in N3'.
  assert (SPX : forall h w0, spendable h w0 = true -> ~ In h (nSpent w0)).
  { intros h w0 S I. unfold spendable in S. apply negb_true_iff in S. rewrite <- not_true_iff_false in S. apply S. apply existsb_exists. exists h. split; [exact I|apply beq_refl]. }
  assert (ROW : In (mkRow id (pKey r) true) (nPriv w')).
  { rewrite W'. cbn [setDB nPriv]. unfold privUID in PR. cbn [addRow nPriv] in PR. apply find_some in PR as [IR IDR]. unfold isId in IDR. apply beq_spec in IDR.
    apply in_map_iff. exists r. split; [|exact IR]. rewrite N.eqb_refl. now rewrite IDR. }
  split; [exact MP|]. split; [unfold getNym, mapped in *; rewrite MM, TN; reflexivity|].
  split. { intros m I. rewrite <- not_true_iff_false in NR. apply NR. apply existsb_exists. exists (id, m). split; [exact I|apply beq_refl]. }
  split. { unfold getNym, mapped in *. rewrite MM. cbn [need rbind]. rewrite DB'. cbn [withKV withAccounts dbNyms]. rewrite AN. cbn [withNyms dbNyms].
    rewrite tmin_new; [reflexivity|apply (iv_nyms _ _ V)|exact TN|apply beq_refl]. }
  split. { unfold getAccount, pairIDs, mapped in *. rewrite MM. cbn [need rbind isNil orb]. 
    assert (Q2 : qNymUID id (nDB w') = Ok (nextId (dbNyms (nDB w)))) by (rewrite DB'; exact Q1).
    rewrite Q2. cbn [rbind]. rewrite DB'. cbn [withKV withAccounts dbAccounts].
    rewrite tmin_new; [|apply (iv_accs _ _ V1)|exact TA|unfold isAcc; cbn [aMy aContact]; now rewrite !N.eqb_refl].
    cbn [aPriv aSecret aServer aMin aMax aLast]. rewrite (b64dec_enc _ WP), (b64dec_enc _ WS). reflexivity. }
  split; [rewrite W'; left; reflexivity|].
  split; [rewrite W'; left; reflexivity|]. split; [exact ROW|]. split; [rewrite W'; left; reflexivity|]. split; [rewrite W'; left; reflexivity|].
  split; [exact I1|]. split; [exact I2|]. split; [exact I3|].
  split. { constructor; [cbn [In]; intuition congruence|]. constructor; [cbn [In]; intuition congruence|]. constructor; [intros []|constructor]. }
  split. { apply SPX in SP1. apply SPX in SP2. apply SPX in SP3. cbn [setTok addAcct addReg nSpent In] in SP1, SP2, SP3. intros h [<-|[<-|[<-|[]]]]; intuition. }
  split; [rewrite W'; reflexivity|].
  split. { rewrite W'. cbn [setDB nTok]. rewrite (filter_two (kHash k1)). clear. induction (nTok w) as [|t l IH]; [reflexivity|].
    cbn [filter existsb]. destruct (beq (kHash t) (kHash k1)), (beq (kHash t) (kHash k2)), (beq (kHash t) (kHash k3)) eqn:E3; cbn [negb andb orb filter]; rewrite ?E3; cbn [negb]; rewrite ?IH; reflexivity. }
  split; [|exact GV']. rewrite <- GV. unfold getValue. cbn [withAccounts dbKV]. rewrite AN. reflexivity.
Qed.

(* ------------------------------------------------------------------ *)
(* every command is made of these steps *)
Definition dbStep U (db d : msgdb) : Prop :=
  (exists id u f, mapped U id = true /\ imap U u = Ok id /\ addNym U id u f db = Ok d) \/
  (exists id p s x a b, addAccount U id [] p s x a b db = Ok d) \/
  (exists v, addValue activeKey v db = Ok d) \/ (exists id, delNym U id db = Ok d).
Section Steps.
  Variable U : Unicode.
  Variable accd : bytes.
  Variable R : world -> world -> Prop.
  Hypothesis Rr : forall w, R w w.
  Hypothesis Rt : forall a b c, R a b -> R b c -> R a c.
  Hypothesis Hlock : forall b h w, R w (setTok (map (setLocked b h) (nTok w)) w).
  Hypothesis Hdel : forall h w, R w (setTok (filter (fun t => negb (beq (kHash t) h)) (nTok w)) w).
  Hypothesis Hrow : forall id w, R w (addRow id w).
  Hypothesis Hacct : forall k h w, spendable h w = true -> R w (addAcct k h w).
  Hypothesis Hreg : forall id r h w, privUID id w = Some r -> pReplied r = false -> spendable h w = true -> isReg id w = false -> R w (addReg id (pKey r) h w).
  Hypothesis Hreply : forall id r w, privUID id w = Some r -> isRegKey id (pKey r) w = true -> R w (setReply (pKey r) w).
  Hypothesis Hpriv : forall id r w, privUID id w = Some r -> R w (delPriv (pKey r) w).
  Hypothesis Hinit : forall id r h w, privUID id w = Some r -> spendable h w = true -> isRegKey id (pKey r) w = true -> R w (addInit id (pKey r) h w).
  Hypothesis Hkey : forall id n w, R w (addKey id n w).
  Hypothesis Hdb : forall w d, dbStep U (nDB w) d -> R w (setDB d w).
  Hypothesis Hdrop : forall k w, R w (dropAcct k w).
  Hypothesis Hbuy : forall h u w, knownHash h w = false -> R w (setTok (nTok w ++ [mkTok h u false]) w).
  Hypothesis Hfree : forall w, R w (freeLocks w).
  Local Notation pres := (pres R).
  Lemma s_bind {A B} (m : M A) (f : A -> M B) : pres m -> (forall a, pres (f a)) -> pres (mbind m f).
  Proof. exact (pres_bind R Rt m f). Qed.
  Ltac go := repeat (first [apply s_bind; [|intros] | apply pres_ret; exact Rr | apply pres_fail; exact Rr | apply pres_lift; exact Rr
    | apply pres_get; exact Rr | apply pres_liftw; exact Rr ]).
  Lemma s_getTok u o : pres (getTok u o).
  Proof. unfold getTok. destruct o; go. destruct a; go. apply pres_mod. apply Hlock. Qed.
  Lemma s_register o id h : pres (register o id h).
  Proof.
    intros w. unfold register, mbind at 1, mget_. destruct (privUID id w) as [r|] eqn:P; [|apply Rr].
    destruct (pReplied r) eqn:PR; [apply Rr|]. unfold mbind at 1.
    pose proof (pres_serve R Rr o h (fun w => negb (isReg id w)) (addReg id (pKey r) h) errReg errRegLost) as S.
    destruct (serve o h _ _ errReg errRegLost w) as [[a|s|] w1] eqn:E.
    - assert (R w w1 /\ (a = AReady -> w1 = addReg id (pKey r) h w)) as [R1 A1].
      { revert E. unfold serve. destruct (spendable h w) eqn:SP, (isReg id w) eqn:IR; cbn [negb andb]; destruct o; intros E; injection E as <- <-;
          (split; [first [apply Rr|now apply Hreg]|first [discriminate|reflexivity]]). }
      destruct a; cbn [snd mret]; [|exact R1|exact R1]. rewrite (A1 eq_refl) in *. unfold mbind, mmod, mret. cbn [snd].
      eapply Rt; [exact R1|]. apply (Hreply id); [exact P|]. unfold isRegKey. cbn [addReg nReg existsb fst snd]. now rewrite beq_refl, N.eqb_refl.
    - exfalso. destruct (serve_ok o h (fun w => negb (isReg id w)) (addReg id (pKey r) h) errReg errRegLost w) as [x [w' E']]. congruence.
    - exfalso. destruct (serve_ok o h (fun w => negb (isReg id w)) (addReg id (pKey r) h) errReg errRegLost w) as [x [w' E']]. congruence.
  Qed.
  Lemma s_delete o id : pres (deleteUID o id).
  Proof.
    unfold deleteUID. destruct o; [|go|go]. intros w. unfold mbind at 1, mget_. destruct (privUID id w) eqn:P; [|apply Rr].
    unfold mbind, mmod, mret. cbn [snd]. now apply (Hpriv id).
  Qed.
  Lemma s_addKeyInit o id h : pres (addKeyInit o id h).
  Proof.
    intros w. unfold addKeyInit, mbind at 1, mget_. destruct (privUID id w) as [r|] eqn:P; [|apply Rr].
    assert (Q : forall a b, R w (snd (serve o h (isRegKey id (pKey r)) (addInit id (pKey r) h) a b w))).
    { intros a b. unfold serve. destruct (spendable h w) eqn:SP, (isRegKey id (pKey r) w) eqn:IR; cbn [andb]; destruct o; cbn [snd]; try apply Rr; now apply Hinit. }
    unfold mbind at 1. match goal with |- context [serve o h ?x ?y ?a ?b w] => specialize (Q a b); destruct (serve o h x y a b w) as [[c|s|] w1] end; cbn [snd] in *; try exact Q.
    destruct c; cbn [snd mret]; try exact Q. unfold mbind, mmod, mret. cbn [snd]. eapply Rt; [exact Q|apply Hkey].
  Qed.
  Lemma s_keyInit e id ce al : pres (keyInitAndQuit e id ce al).
  Proof.
    unfold keyInitAndQuit. apply s_bind; [apply s_getTok|]. intros [h|]; [|go]. apply s_bind; [destruct al; [apply s_addKeyInit|go]|].
    intros [| |]; go; try (apply pres_mod; apply Hdel); cbn [live negb]; destruct (neQuit e); destruct ce; cbn [negb]; go.
  Qed.
  Lemma s_newUID e id : pres (mutecryptNewUID e id).
  Proof.
    unfold mutecryptNewUID. destruct (negb _); [go|]. apply s_bind; [unfold generate; destruct (neGen e); go; apply pres_mod; apply Hrow|].
    intros [| |]; go. destruct (negb _); [go|]. apply s_bind; [apply s_getTok|]. intros [h|]; [|go]. apply s_bind; [apply s_register|].
    intros [|s|].
    - apply s_bind; [apply pres_mod; apply Hdel|]. intros _. apply s_keyInit.
    - apply s_bind; [apply pres_mod; apply Hlock|]. intros _. apply s_bind; [apply s_delete|]. intros [| |]; [apply s_keyInit|go|apply s_keyInit].
    - apply s_bind; [apply pres_mod; apply Hdel|]. intros _. apply s_keyInit.
  Qed.
  Lemma s_pay o k h : pres (payAccount o k h).
  Proof. unfold payAccount. apply pres_serve; [exact Rr|]. intros w S _. now apply Hacct. Qed.
  Lemma s_bindlift {A B} (r : res A) (f : A -> M B) : (forall a, r = Ok a -> pres (f a)) -> pres (mbind (mlift r) f).
  Proof. intros H w. unfold mbind, mlift. destruct r as [a|s|]; [now apply H|apply Rr|apply Rr]. Qed.
  Lemma s_nym {B} id (f : bytes * bytes -> M B) : (mapped U id = true -> forall a, pres (f a)) -> pres (mbind (fun w => mlift (getNym U id (nDB w)) w) f).
  Proof.
    intros H w. unfold mbind, mlift. destruct (getNym U id (nDB w)) as [a|s|] eqn:G; [|apply Rr|apply Rr].
    unfold getNym in G. apply dbind_ok in G as [x [MP _]]. apply need_ok in MP. now apply H.
  Qed.
  Lemma s_uidNew e u f a b : pres (uidNew U accd e u f a b).
  Proof.
    unfold uidNew. apply s_bindlift. intros [id d] MP. apply mapPlus_imap in MP. apply s_bind; [unfold mneed; go|]. intros _.
    apply s_nym. intros MM [old of]. destruct (negb _); [go|]. apply s_bind; [go|]. intros [|]; [go|].
    apply s_bind; [apply s_getTok|]. intros [h|]; [|go]. apply s_bind; [apply s_pay|]. intros [|s|]; [|go; apply pres_mod; apply Hlock|go].
    apply s_bind; [apply pres_mod; apply Hdel|]. intros _. apply s_bind; [unfold mneed; go|]. intros _. apply s_bind; [apply s_newUID|]. intros _.
    apply s_bind; [apply pres_onDB; [exact Rr|]; intros w x E; apply Hdb; left; eauto 7|]. intros _.
    apply s_bind; [apply pres_onDB; [exact Rr|]; intros w x E; apply Hdb; right; left; eauto 8|]. intros _.
    apply s_bind; [go|]. intros ac. destruct (isNil ac); [|go]. apply pres_onDB; [exact Rr|]. intros w x E. apply Hdb. right; right; left. eauto.
  Qed.
  Lemma s_delAccts ok ks : pres (deleteAccounts ok ks).
  Proof.
    induction ks as [|k ks IH]; cbn [deleteAccounts]; [go|]. destruct (ok k); [|go]. apply s_bind; [apply pres_mod; apply Hdrop|]. intros _. exact IH.
  Qed.
  Lemma s_exec o : pres (nexec U accd o).
  Proof.
    destruct o as [e u f a b|u f|u|e u|h u|]; cbn [nexec].
    - apply s_uidNew.
    - unfold uidEdit. apply s_bindlift. intros id MP. apply s_nym. intros MM [old of]. destruct (isNil old); [go|].
      apply pres_onDB; [exact Rr|]. intros w x E. apply Hdb. left. eauto 7.
    - unfold uidSwitch. apply s_bindlift. intros id MP. apply s_nym. intros MM [old of]. destruct (isNil old); [go|].
      apply pres_onDB; [exact Rr|]. intros w x E. apply Hdb. right; right; left. eauto.
    - unfold uidDelete. apply s_bindlift. intros id MP. apply s_nym. intros MM [old of]. destruct (isNil old); [go|].
      apply s_bind; [go|]. intros ks. apply s_bind; [apply pres_onDB; [exact Rr|]; intros w x E; apply Hdb; right; right; right; eauto|]. intros _.
      apply s_bind; [apply s_delete|]. intros [| |]; [apply s_delAccts|go|go].
    - apply pres_mod. intros w. destruct (knownHash h w) eqn:K; [apply Rr|now apply Hbuy].
    - apply pres_mod. apply Hfree.
  Qed.
  Lemma s_run ops w : R w (nrun U accd ops w).
  Proof. revert w. induction ops as [|o ops IH]; intros w; [apply Rr|]. cbn [nrun fold_left]. eapply Rt; [apply (s_exec o)|apply IH]. Qed.
End Steps.

(* ------------------------------------------------------------------ *)
(* what holds in every reachable world *)
Record Wf U (w : world) : Prop := mkWf {
  wf_db : Inv U (nDB w);
  wf_keys : NoDup (map pKey (nPriv w));
  wf_lt : forall r, In r (nPriv w) -> pKey r < nNext w;
  wf_reglt : forall r, In r (nReg w) -> snd r < nNext w;
  wf_regid : NoDup (map fst (nReg w));
  wf_replied : forall r, In r (nPriv w) -> pReplied r = true -> In (pId r, pKey r) (nReg w);
  wf_first : forall r, In r (nPriv w) -> In (pId r, pKey r) (nReg w) -> privUID (pId r) w = Some r;
  wf_hash : NoDup (map kHash (nTok w)) }.
Lemma find_app_some {A} (p : A -> bool) l m x : find p l = Some x -> find p (l ++ m) = Some x.
Proof. induction l as [|y l IH]; cbn [find app]; [discriminate|]. destruct (p y); [auto|exact IH]. Qed.
Lemma find_filter {A} (p q : A -> bool) l x : find p l = Some x -> q x = true -> find p (filter q l) = Some x.
Proof.
  induction l as [|y l IH]; cbn [find filter]; [discriminate|]. destruct (p y) eqn:E.
  - intros H Q. injection H as ->. rewrite Q. cbn [find]. now rewrite E.
  - intros H Q. destruct (q y); [cbn [find]; rewrite E|]; now apply IH.
Qed.
Lemma NoDup_map_inj {A B} (f : A -> B) l x y : NoDup (map f l) -> In x l -> In y l -> f x = f y -> x = y.
Proof.
  induction l as [|z l IH]; [intros _ []|]. cbn [map]. intros N X Y E. inversion_clear N as [|? ? NI N'].
  destruct X as [->|X], Y as [->|Y]; [reflexivity| | |now apply IH].
  - exfalso. apply NI. rewrite E. now apply in_map.
  - exfalso. apply NI. rewrite <- E. now apply in_map.
Qed.
Lemma privUID_In id w r : privUID id w = Some r -> In r (nPriv w) /\ pId r = id.
Proof. intros P. apply find_some in P as [I E]. apply beq_spec in E. auto. Qed.
Lemma isReg_In id w : isReg id w = true <-> In id (map fst (nReg w)).
Proof.
  unfold isReg. rewrite existsb_exists, in_map_iff. split; intros [r [A B]]; exists r.
  - apply beq_spec in B. auto.
  - subst. split; [exact B|apply beq_refl].
Qed.
Lemma isRegKey_In id n w : isRegKey id n w = true <-> In (id, n) (nReg w).
Proof.
  unfold isRegKey. rewrite existsb_exists. split.
  - intros [[a b] [I E]]. cbn [fst snd] in E. apply andb_prop in E as [E F]. apply beq_spec in E. apply N.eqb_eq in F. now subst.
  - intros I. exists (id, n). split; [exact I|]. cbn [fst snd]. now rewrite beq_refl, N.eqb_refl.
Qed.
Lemma dbStep_Inv U db d : Inv U db -> dbStep U db d -> Inv U d.
Proof.
  intros V [[id [u [f [_ [_ E]]]]]|[[id [p [s [x [a [b E]]]]]]|[[v E]|[id E]]]].
  - eapply Inv_addNym; eassumption.
  - eapply Inv_addAccount; eassumption.
  - unfold addValue in E. apply dbind_ok in E as [? [_ E]]. apply dbind_ok in E as [? [_ E]]. apply Ok_eq in E as <-. destruct V. constructor; assumption.
  - eapply (Inv_dexec U (DDelNym id)); [exact V|exact E].
Qed.
Section WfSteps.
  Variable U : Unicode.
  Variable accd : bytes.
  Lemma hashes_locked b h l : map kHash (map (setLocked b h) l) = map kHash l.
  Proof. rewrite map_map. apply map_ext. intros t. unfold setLocked. now destruct (beq _ _). Qed.
  Lemma wf_tok w l : Wf U w -> NoDup (map kHash l) -> Wf U (setTok l w).
  Proof. intros W N. destruct W. constructor; assumption. Qed.
  Lemma w_lock : forall b h w, Wf U w -> Wf U (setTok (map (setLocked b h) (nTok w)) w).
  Proof.
    intros b h w W. apply wf_tok; [exact W|]. rewrite hashes_locked. apply (wf_hash _ _ W).
  Qed.
  Lemma w_del : forall h w, Wf U w -> Wf U (setTok (filter (fun t => negb (beq (kHash t) h)) (nTok w)) w).
  Proof.
    intros h w W. apply wf_tok; [exact W|]. apply NoDup_map_filter. apply (wf_hash _ _ W).
  Qed.
  Lemma w_row : forall id w, Wf U w -> Wf U (addRow id w).
  Proof.
    intros id w [V K L RL RI RP RF H]. constructor; cbn [addRow nDB nPriv nReg nNext nTok]; auto.
    + rewrite map_app. apply NoDup_app_last; [exact K|]. intros I. apply in_map_iff in I as [r [E I]]. specialize (L _ I). cbn [pKey] in E. lia.
    + intros r I. apply in_app_iff in I as [I|[<-|[]]]; [specialize (L _ I); lia|cbn [pKey]; lia].
    + intros r I. specialize (RL _ I). lia.
    + intros r I P. apply in_app_iff in I as [I|[<-|[]]]; [now apply RP|discriminate P].
    + intros r I P. apply in_app_iff in I as [I|[<-|[]]].
      * unfold privUID. cbn [addRow nPriv]. apply find_app_some. now apply RF.
      * specialize (RL _ P). cbn [snd pKey] in RL. lia.
  Qed.
  Lemma w_acct : forall k h w, spendable h w = true -> Wf U w -> Wf U (addAcct k h w).
  Proof.
    intros k h w _ [V K L RL RI RP RF H]. constructor; auto.
  Qed.
  Lemma w_reg : forall id r h w, privUID id w = Some r -> pReplied r = false -> spendable h w = true -> isReg id w = false -> Wf U w -> Wf U (addReg id (pKey r) h w).
  Proof.
    intros id r h w P PR _ NR [V K L RL RI RP RF H]. apply privUID_In in P as PI. destruct PI as [IR ID].
    constructor; cbn [addReg nDB nPriv nReg nNext nTok]; auto.
    + intros x [<-|I]; [cbn [snd]; now apply L|now apply RL].
    + cbn [map fst]. constructor; [|exact RI]. intros I. apply isReg_In in I. congruence.
    + intros x I Q. right. now apply RP.
    + intros x I [Q|Q]; [|now apply RF]. assert (Q1 := f_equal snd Q). cbn [snd] in Q1.
      assert (X : x = r) by (apply (NoDup_map_inj pKey (nPriv w)); auto). subst x. rewrite ID. exact P.
  Qed.
  Lemma w_reply : forall id r w, privUID id w = Some r -> isRegKey id (pKey r) w = true -> Wf U w -> Wf U (setReply (pKey r) w).
  Proof.
    intros id r w P RK [V K L RL RI RP RF H]. apply privUID_In in P as PI. destruct PI as [IR ID]. apply isRegKey_In in RK.
    assert (KM : map pKey (map (fun x => if pKey x =? pKey r then mkRow (pId x) (pKey x) true else x) (nPriv w)) = map pKey (nPriv w)).
    { rewrite map_map. apply map_ext. intros x. now destruct (_ =? _). }
    constructor; cbn [setReply setPrivs nDB nPriv nReg nNext nTok]; auto.
    + now rewrite KM.
    + intros x I. apply in_map_iff in I as [y [<- I]]. specialize (L _ I). destruct (_ =? _); exact L.
    + intros x I Q. apply in_map_iff in I as [y [<- I]]. destruct (pKey y =? pKey r) eqn:E; [|now apply RP].
      apply N.eqb_eq in E. assert (X : y = r) by (apply (NoDup_map_inj pKey (nPriv w)); auto). subst y. cbn [pId pKey]. now rewrite ID.
    + intros x I Q. apply in_map_iff in I as [y [<- I]].
      assert (G : forall i l z, find (isId i) l = Some z -> find (isId i) (map (fun x => if pKey x =? pKey r then mkRow (pId x) (pKey x) true else x) l) =
        Some (if pKey z =? pKey r then mkRow (pId z) (pKey z) true else z)).
      { clear. intros i l z. induction l as [|y l IH]; cbn [find map]; [discriminate|].
        assert (X : isId i (if pKey y =? pKey r then mkRow (pId y) (pKey y) true else y) = isId i y) by (now destruct (pKey y =? pKey r)).
        rewrite X. destruct (isId i y); [|exact IH]. intros E. now injection E as ->. }
      unfold privUID. cbn [nPriv setPrivs].
      assert (PI2 : pId (if pKey y =? pKey r then mkRow (pId y) (pKey y) true else y) = pId y) by (now destruct (_ =? _)).
      assert (PK2 : pKey (if pKey y =? pKey r then mkRow (pId y) (pKey y) true else y) = pKey y) by (now destruct (_ =? _)).
      rewrite PI2, PK2 in *. apply G. now apply RF.
  Qed.
  Lemma w_priv : forall id r w, privUID id w = Some r -> Wf U w -> Wf U (delPriv (pKey r) w).
  Proof.
    intros id r w P [V K L RL RI RP RF H]. constructor; cbn [delPriv setPrivs nDB nPriv nReg nNext nTok]; auto.
    + now apply NoDup_map_filter.
    + intros x I. apply filter_In in I as [I _]. now apply L.
    + intros x I. apply filter_In in I as [I _]. now apply RP.
    + intros x I Q. apply filter_In in I as [I E]. unfold privUID. cbn [setPrivs nPriv]. apply find_filter; [now apply RF|exact E].
  Qed.
  Lemma w_init : forall id r h w, privUID id w = Some r -> spendable h w = true -> isRegKey id (pKey r) w = true -> Wf U w -> Wf U (addInit id (pKey r) h w).
  Proof.
    intros id r h w _ _ _ [V K L RL RI RP RF H]. constructor; auto.
  Qed.
  Lemma w_key : forall id n w, Wf U w -> Wf U (addKey id n w).
  Proof.
    intros id n w [V K L RL RI RP RF H]. constructor; auto.
  Qed.
  Lemma w_db : forall w d, dbStep U (nDB w) d -> Wf U w -> Wf U (setDB d w).
  Proof.
    intros w d D [V K L RL RI RP RF H]. constructor; auto. cbn [setDB nDB]. eapply dbStep_Inv; eassumption.
  Qed.
  Lemma w_drop : forall k w, Wf U w -> Wf U (dropAcct k w).
  Proof.
    intros k w [V K L RL RI RP RF H]. constructor; auto.
  Qed.
  Lemma w_buy : forall h u w, knownHash h w = false -> Wf U w -> Wf U (setTok (nTok w ++ [mkTok h u false]) w).
  Proof.
    intros h u w KH W. apply wf_tok; [exact W|]. rewrite map_app. apply NoDup_app_last; [apply (wf_hash _ _ W)|]. cbn [kHash].
    intros I. apply in_map_iff in I as [t [E I]]. unfold knownHash in KH. apply orb_false_iff in KH as [_ KH].
    rewrite <- not_true_iff_false in KH. apply KH. apply existsb_exists. exists t. split; [exact I|]. rewrite E. apply beq_refl.
  Qed.
  Lemma w_free : forall w, Wf U w -> Wf U (freeLocks w).
  Proof.
    intros w W. apply wf_tok; [exact W|]. rewrite map_map. apply (wf_hash _ _ W).
  Qed.
  Definition wfR (a b : world) : Prop := Wf U a -> Wf U b.
  Lemma wf_run ops w : Wf U w -> Wf U (nrun U accd ops w).
  Proof.
    apply (s_run U accd wfR); unfold wfR; auto using w_lock, w_del, w_row, w_acct, w_init, w_key, w_db, w_drop, w_buy, w_free.
    - intros. now apply w_reg.
    - intros id r w0 P RK. now apply (w_reply id).
    - intros id r w0 P. now apply (w_priv id).
  Qed.
  Lemma wf_getTok u o w : Wf U w -> Wf U (snd (getTok u o w)).
  Proof. apply (s_getTok wfR); unfold wfR; auto using w_lock. Qed.
  Lemma wf_register o id h w : Wf U w -> Wf U (snd (register o id h w)).
  Proof.
    apply (s_register wfR); unfold wfR; auto; [intros; now apply w_reg|]. intros i r w0 P RK. now apply (w_reply i).
  Qed.
  Lemma wf_fresh others k : NoDup (map fst others) -> Forall (fun r => snd r < k) others -> Wf U (freshWorld others k).
  Proof.
    intros N F. rewrite Forall_forall in F. constructor; cbn [freshWorld nDB nPriv nReg nNext nTok].
    - apply Inv_empty.
    - constructor.
    - intros ? [].
    - exact F.
    - exact N.
    - intros ? [].
    - intros ? [].
    - constructor.
  Qed.
End WfSteps.
(* the worlds reachable from a new installation *)
Definition reachable U accd (w : world) : Prop := exists others k ops, NoDup (map fst others) /\ Forall (fun r => snd r < k) others /\
  w = nrun U accd ops (freshWorld others k).
Lemma reach_wf U accd w : reachable U accd w -> Wf U w.
Proof. intros [o [k [ops [N [F ->]]]]]. apply wf_run. now apply wf_fresh. Qed.

(* ------------------------------------------------------------------ *)
(* C158: can a failed uid new be repeated? *)
Definition goodEnv (e : nenv) : Prop := neSync e = true /\ neTok1 e = TGet /\ nePay e = Served /\ neAddr e = true /\ neStart e = true /\
  neGen e = LOk /\ neCaps e = true /\ neTok2 e = TGet /\ neReg e = Served /\ neTok3 e = TGet /\ neInit e = Served /\ neQuit e = true.
Definition canPay (usage : bytes) (w : world) : Prop := exists k, find (usableFor usage) (nTok w) = Some k /\ ~ In (kHash k) (nSpent w).
Lemma spendable_In h w : spendable h w = true <-> ~ In h (nSpent w).
Proof.
  unfold spendable. rewrite negb_true_iff, <- not_true_iff_false. split; intros H I; apply H.
  - apply existsb_exists. exists h. split; [exact I|apply beq_refl].
  - apply existsb_exists in I as [x [I E]]. apply beq_spec in E. now subst.
Qed.
Lemma find_other u k h l : find (usableFor u) l = Some k -> kHash k <> h ->
  find (usableFor u) (filter (fun t => negb (beq (kHash t) h)) l) = Some k.
Proof. intros F N. apply find_filter; [exact F|]. apply negb_true_iff. now apply beq_neq. Qed.
Lemma hash_neq u v k1 k2 l : NoDup (map kHash l) -> u <> v -> find (usableFor u) l = Some k1 -> find (usableFor v) l = Some k2 -> kHash k1 <> kHash k2.
Proof.
  intros N UV F1 F2 E. assert (U1 := find_usable _ _ _ F1). assert (U2 := find_usable _ _ _ F2). apply find_some in F1 as [I1 _], F2 as [I2 _].
  assert (k1 = k2) by (apply (NoDup_map_inj kHash l); auto). subst k2. destruct U1 as [_ [A _]], U2 as [_ [B _]]. congruence.
Qed.
Lemma getTok_go u k w : find (usableFor u) (nTok w) = Some k -> getTok u TGet w = (Ok (Some (kHash k)), setTok (map (setLocked true (kHash k)) (nTok w)) w).
Proof. intros F. unfold getTok, mbind, mget_. rewrite F. reflexivity. Qed.
Lemma serve_go h ok eff a b w : spendable h w = true -> ok w = true -> serve Served h ok eff a b w = (Ok AReady, eff w).
Proof. intros S O. unfold serve. now rewrite S, O. Qed.
Lemma newUID_go e id w k2 k3 r : goodEnv e -> find (usableFor (str "UID")) (nTok w) = Some k2 -> ~ In (kHash k2) (nSpent w) ->
  find (usableFor (str "Message")) (nTok w) = Some k3 -> ~ In (kHash k3) (nSpent w) -> kHash k3 <> kHash k2 ->
  privUID id (addRow id w) = Some r -> pReplied r = false -> isReg id w = false -> exists w', mutecryptNewUID e id w = (Ok tt, w') /\ nDB w' = nDB w.
Proof.
  intros [_ [_ [_ [_ [ST [GE [CA [T2 [RG [T3 [IN QU]]]]]]]]]]] F2 S2 F3 S3 NE P PR NR.
  apply spendable_In in S2 as S2'. apply spendable_In in S3 as S3'.
  unfold mutecryptNewUID. rewrite ST, CA, GE, T2, RG. cbn [negb generate]. unfold mbind at 1 2, mmod, mret at 1.
  unfold mbind at 1. rewrite (getTok_go _ k2) by exact F2. unfold mbind at 1. unfold register, mbind at 1, mget_.
  assert (P1 : privUID id (setTok (map (setLocked true (kHash k2)) (nTok (addRow id w))) (addRow id w)) = Some r) by exact P.
  rewrite P1, PR. unfold mbind at 1. rewrite serve_go; [|exact S2'|apply negb_true_iff; exact NR].
  unfold mbind at 1, mmod, mret at 1. unfold mbind at 1, delTok, mmod at 1. cbn [live]. unfold keyInitAndQuit. rewrite T3, IN, QU.
  unfold mbind at 1. rewrite (getTok_go _ k3).
  2: { cbn [setTok nTok addRow addReg setReply setPrivs]. rewrite filter_locked. now apply find_other. }
  unfold mbind at 1. unfold addKeyInit, mbind at 1, mget_.
  match goal with |- context [privUID id ?x] => assert (P2 : privUID id x = Some (mkRow (pId r) (pKey r) true)) end.
  { revert P. unfold privUID. cbn [setTok nPriv setReply setPrivs addReg addRow].
    generalize (nPriv w ++ [mkRow id (nNext w) false]). clear. intros l. induction l as [|x l IH]; cbn [find map]; [discriminate|].
    assert (X : isId id (if pKey x =? pKey r then mkRow (pId x) (pKey x) true else x) = isId id x) by (now destruct (pKey x =? pKey r)).
    rewrite X. destruct (isId id x); [|exact IH]. intros A. injection A as ->. now rewrite N.eqb_refl. }
  rewrite P2. cbn [pKey]. unfold mbind at 1. rewrite serve_go.
  - eexists. split; [reflexivity|]. reflexivity.
  - apply spendable_In. cbn [setTok setReply setPrivs addReg addRow nSpent In]. intuition congruence.
  - apply isRegKey_In. left. reflexivity.
Qed.
Lemma nodup_nextId {A} (t : tbl A) : ~ In (nextId t) (map fst t).
Proof. intros I. apply in_map_iff in I as [r [E I]]. apply nextId_gt in I. lia. Qed.
Lemma dbs_go U id d u f p s x a b db : Inv U db -> mapPlus U u = Ok (id, d) -> mapped U id = true -> tmin (fun _ n => beq (nMapped n) id) (dbNyms db) = None ->
  exists db1 db2, addNym U id u f db = Ok db1 /\ addAccount U id [] p s x a b db1 = Ok db2 /\ dbKV db2 = dbKV db.
Proof.
  intros V MP MM TN. apply mapPlus_imap in MP as IM.
  assert (U0 : u <> []) by (intros ->; discriminate MP).
  assert (I0 : id <> []) by (intros ->; discriminate MM).
  assert (E1 : addNym U id u f db = Ok (withNyms (tins (mkNym id u f 0 0) (dbNyms db)) db)).
  { unfold addNym. assert (N1 : isNil id = false) by (now destruct id). assert (N2 : isNil u = false) by (now destruct u).
    rewrite N1, N2, MM, IM. cbn [negb need rbind]. rewrite beq_refl. cbn [need rbind].
    destruct (thas (fun _ n => beq (nMapped n) id) (dbNyms db)) eqn:T1.
    { apply thas_true in T1 as [r [I E]]. pose proof (tmin_none _ _ TN _ I) as Q. cbn beta in *. congruence. }
    destruct (thas (fun _ n => beq (nUnmapped n) u) (dbNyms db)) eqn:T2; [|reflexivity]. exfalso.
    apply thas_true in T2 as [r [I E]]. apply beq_spec in E. destruct (iv_nyms _ _ V) as [_ [F _]]. rewrite Forall_forall in F.
    destruct (F _ I) as [_ [M _]]. rewrite E, IM in M. apply Ok_eq in M. pose proof (tmin_none _ _ TN _ I) as Q. cbn beta in Q. rewrite <- M, beq_refl in Q. discriminate Q. }
  assert (V1 := Inv_addNym _ _ _ _ _ _ V E1).
  exists (withNyms (tins (mkNym id u f 0 0) (dbNyms db)) db). eexists. split; [exact E1|].
  assert (Q1 : qNymUID id (withNyms (tins (mkNym id u f 0 0) (dbNyms db)) db) = Ok (nextId (dbNyms db))).
  { unfold qNymUID. cbn [withNyms dbNyms]. rewrite tmin_new; [reflexivity|apply (iv_nyms _ _ V)|exact TN|apply beq_refl]. }
  unfold addAccount, pairIDs. rewrite MM. cbn [need rbind isNil orb]. rewrite Q1. cbn [rbind withNyms dbAccounts].
  destruct (thas _ _) eqn:TH; [exfalso|cbn [negb need rbind]; split; reflexivity].
  apply thas_true in TH as [r [I E]]. unfold isAcc in E. apply andb_prop in E as [E _]. apply N.eqb_eq in E.
  destruct (iv_accs _ _ V) as [_ [F _]]. rewrite Forall_forall in F. destruct (F _ I) as [M _]. rewrite E in M. exact (nodup_nextId _ M).
Qed.

Theorem C158_possible_partial : forall U accd e unm full minD maxD id d w, reachable U accd w -> goodEnv e ->
  accd <> str "UID" -> accd <> str "Message" ->
  mapPlus U unm = Ok (id, d) -> getNym U id (nDB w) = Ok ([], []) -> (forall n, ~ In (id, n) (nReg w)) ->
  canPay accd w -> canPay (str "UID") w -> canPay (str "Message") w ->
  fst (uidNew U accd e unm full minD maxD w) = Ok tt.
Proof.
  intros U accd e unm full minD maxD id d w RE G A1 A2 MP GN NR [k1 [F1 S1]] [k2 [F2 S2]] [k3 [F3 S3]]. apply reach_wf in RE.
  assert (NR' : isReg id w = false). { apply not_true_iff_false. intros I. apply isReg_In, in_map_iff in I as [[x n] [E I]]. cbn [fst] in E. subst. exact (NR _ I). }
  destruct (unknownNym _ _ _ _ _ (wf_db _ _ RE) GN eq_refl) as [MM TN].
  assert (H12 := hash_neq _ _ _ _ _ (wf_hash _ _ RE) A1 F1 F2). assert (H13 := hash_neq _ _ _ _ _ (wf_hash _ _ RE) A2 F1 F3).
  assert (H23 : kHash k3 <> kHash k2). { apply (hash_neq (str "Message") (str "UID") _ _ (nTok w)); [apply (wf_hash _ _ RE)|discriminate|exact F3|exact F2]. }
  destruct G as [SY [T1 [PA [AD G]]]]. assert (G' := conj SY (conj T1 (conj PA (conj AD G)))). fold (goodEnv e) in G'.
  assert (ROW : exists r, privUID id (addRow id w) = Some r /\ pReplied r = false).
  { destruct (privUID id w) as [r|] eqn:P.
    - exists r. split; [unfold privUID; cbn [addRow nPriv]; now apply find_app_some|]. destruct (pReplied r) eqn:Q; [|reflexivity]. exfalso.
      apply privUID_In in P as [I E]. apply (NR (pKey r)). rewrite <- E. exact (wf_replied _ _ RE _ I Q).
    - exists (mkRow id (nNext w) false). split; [|reflexivity]. unfold privUID. cbn [addRow nPriv]. rewrite (find_app_none _ _ _ P). cbn [find isId pId]. unfold isId. cbn [pId]. now rewrite beq_refl. }
  destruct ROW as [r [P PR]].
  unfold uidNew. unfold mbind at 1, mlift at 1. rewrite MP. unfold mbind at 1, mneed, mlift at 1. rewrite SY. cbn [need].
  unfold mbind at 1, mlift at 1. rewrite GN. cbn [isNil negb]. unfold mbind at 1, mget_ at 1. rewrite NR', andb_false_r.
  unfold mbind at 1. rewrite T1, (getTok_go _ k1) by exact F1. unfold mbind at 1. unfold payAccount. rewrite PA.
  rewrite serve_go; [|now apply spendable_In|reflexivity]. unfold mbind at 1, delTok, mmod at 1. unfold mbind at 1, mlift at 1. rewrite AD. cbn [need].
  unfold mbind at 1.
  match goal with |- context [mutecryptNewUID e id ?x] => destruct (newUID_go e id x k2 k3 r) as [w' [E DB]]; try exact G'; auto end.
  - cbn [setTok nTok addAcct]. rewrite filter_locked. apply find_other; [exact F2|congruence].
  - cbn [setTok addAcct nSpent In]. intuition congruence.
  - cbn [setTok nTok addAcct]. rewrite filter_locked. apply find_other; [exact F3|congruence].
  - cbn [setTok addAcct nSpent In]. intuition congruence.
  - rewrite E. cbn [setTok addAcct nDB] in DB.
    destruct (dbs_go U id d unm full (nePriv e) (neServer e) (neSecret e) minD maxD (nDB w) (wf_db _ _ RE) MP MM TN) as [db1 [db2 [D1 [D2 KV]]]].
    unfold mbind at 1, onDB at 1. rewrite DB, D1. unfold mbind at 1, onDB at 1. cbn [setDB nDB]. rewrite D2.
    unfold mbind at 1, mlift at 1. cbn [setDB nDB]. unfold getValue. change (negb (isNil activeKey)) with true. cbn [need rbind].
    destruct (isNil _); [|reflexivity]. unfold onDB, addValue. change (negb (isNil activeKey)) with true.
    assert (U0 : isNil unm = false) by (destruct unm; [discriminate MP|reflexivity]). rewrite U0. reflexivity.
Qed.
(* once the ID is registered, uid new never succeeds for it, whatever is done in between *)
Lemma isReg_run U accd ops w id : isReg id w = true -> isReg id (nrun U accd ops w) = true.
Proof.
  apply (s_run U accd (fun a b => isReg id a = true -> isReg id b = true)); clear; auto.
  intros id' r h w _ _ _ _ I. unfold isReg. cbn [addReg nReg existsb]. apply orb_true_iff. right. exact I.
Qed.
Lemma uidNew_fresh U accd e u f a b w w' id d : mapPlus U u = Ok (id, d) -> uidNew U accd e u f a b w = (Ok tt, w') -> isReg id w = false.
Proof.
  intros MP H. unfold uidNew in H. rewrite MP in H.
  apply mbind_ok in H as [[id' d'] [w1 [E H]]]. injection E as <- <- <-.
  apply mbind_ok in H as [[] [w1 [E H]]]. injection E as _ <-.
  apply mbind_ok in H as [[old of] [w1 [E H]]]. injection E as GN <-.
  destruct (isNil old) eqn:NO; [|discriminate H]. cbn [negb] in H.
  apply mbind_ok in H as [fo [w1 [E H]]]. injection E as <- <-. destruct (neSearch e && isReg id w); [discriminate H|].
  apply mbind_ok in H as [t [w1 [E H]]]. destruct t as [h|]; [|discriminate H]. apply getTok_ok in E as [_ [[k1 [F1 <-]] ->]].
  apply mbind_ok in H as [x [w1 [E H]]]. destruct x; [| |discriminate H].
  2: { apply mbind_ok in H as [[] [w2 [_ H]]]. discriminate H. }
  unfold payAccount in E. apply serve_ready in E as [_ [SP1 [_ ->]]].
  apply mbind_ok in H as [[] [w1 [E H]]]. injection E as <-.
  apply mbind_ok in H as [[] [w1 [E H]]]. injection E as _ <-.
  apply mbind_ok in H as [[] [w1 [E H]]].
  apply newUID_ok in E as [k2 [k3 [r [F2 [SP2 [F3 [SP3 [PR [RP [NR _]]]]]]]]]]. exact NR.
Qed.
Theorem C158_taken : forall U accd ops e unm full minD maxD id d n w, In (id, n) (nReg w) -> mapPlus U unm = Ok (id, d) ->
  fst (uidNew U accd e unm full minD maxD (nrun U accd ops w)) <> Ok tt.
Proof.
  intros U accd ops e unm full minD maxD id d n w I MP H. assert (R : isReg id w = true) by (apply isReg_In; change id with (fst (id, n)); now apply in_map).
  apply (isReg_run U accd ops) in R. destruct (uidNew U accd e unm full minD maxD (nrun U accd ops w)) as [r w'] eqn:E. cbn [fst] in H. subst r.
  apply (uidNew_fresh _ _ _ _ _ _ _ _ _ _ _ MP) in E. congruence.
Qed.

(* ------------------------------------------------------------------ *)
(* fixtures *)
Definition exAccd : bytes := str "accd".
Definition exUid : bytes := str "Alice@example.com".
Definition exMapped : bytes := str "alice@example.com".
Definition gEnv (pay reg ini : rpc) (del : local) : nenv :=
  mkNenv true true TGet pay (repeat 7 64) (str "server") (repeat 9 64) true true LOk true TGet reg del TGet ini true.
Definition buys : list nop := [NBuy (str "a1") exAccd; NBuy (str "u1") (str "UID"); NBuy (str "m1") (str "Message");
  NBuy (str "a2") exAccd; NBuy (str "u2") (str "UID"); NBuy (str "m2") (str "Message")].
Definition exStart : world := Eval vm_compute in nrun goUnicode exAccd buys (freshWorld [(str "bob@example.com", 3)] 4).
Lemma reach_exStart : reachable goUnicode exAccd exStart.
Proof.
  exists [(str "bob@example.com", 3)], 4, buys. split; [constructor; [intros []|constructor]|]. split; [constructor; [cbn [snd]; lia|constructor]|]. vm_compute. reflexivity.
Qed.
Definition uNew (e : nenv) (w : world) := uidNew goUnicode exAccd e exUid (str "Alice") 1 2 w.
Definition exMade : world := Eval vm_compute in snd (uNew (gEnv Served Served Served LOk) exStart).
Example C157_ex : uNew (gEnv Served Served Served LOk) exStart = (Ok tt, exMade) /\ Inv goUnicode (nDB exStart) /\ wfb (repeat 7 64) /\ wfb (repeat 9 64).
Proof.
  split; [vm_compute; reflexivity|]. split; [apply (wf_db _ _ (reach_wf _ _ _ reach_exStart))|]. split; apply wfb_repeat; lia.
Qed.
Lemma reach_step U accd o w w' : reachable U accd w -> w' = nstep U accd w o -> reachable U accd w'.
Proof.
  intros [others [k [ops [N [F ->]]]]] ->. exists others, k, (ops ++ [o]). split; [exact N|]. split; [exact F|]. unfold nrun. now rewrite fold_left_app.
Qed.
(* the key init is refused: the nym is registered with a key only we have, but mutectrl does not know it *)
Definition exInit : world := Eval vm_compute in snd (uNew (gEnv Served Served Refused LOk) exStart).
(* the answer of the key server to the registration is lost: the nym is registered, and its key is deleted *)
Definition exGone : world := Eval vm_compute in snd (uNew (gEnv Served Lost Served LOk) exStart).
Definition failed (r : res unit) : bool := match r with Err _ => true | _ => false end.
Theorem C158_refuted : exists e1 e2 w w1 w2, reachable goUnicode exAccd w /\
  (exists s, uNew e1 w = (Err s, w1)) /\ getNym goUnicode exMapped (nDB w1) = Ok ([], []) /\ In (exMapped, 4) (nReg w1) /\ In (mkRow exMapped 4 true) (nPriv w1) /\
  fst (uNew (gEnv Served Served Served LOk) w1) = Err "ErrUserIDTaken"%string /\
  (exists s, uNew e2 w = (Err s, w2)) /\ In (exMapped, 4) (nReg w2) /\ (forall r, In r (nPriv w2) -> pId r <> exMapped) /\
  fst (uNew (gEnv Served Served Served LOk) w2) = Err "ErrUserIDTaken"%string.
Proof.
  exists (gEnv Served Served Refused LOk), (gEnv Served Lost Served LOk), exStart, exInit, exGone.
  split; [exact reach_exStart|]. split; [eexists; vm_compute; reflexivity|]. split; [vm_compute; reflexivity|]. split; [left; reflexivity|].
  split; [left; reflexivity|]. split; [vm_compute; reflexivity|]. split; [eexists; vm_compute; reflexivity|]. split; [left; reflexivity|].
  split; [intros r []|vm_compute; reflexivity].
Qed.
(* after a failure before the registration the command can be repeated: a case with a leftover key *)
Definition noCaps : nenv := mkNenv true true TGet Served (repeat 7 64) (str "server") (repeat 9 64) true true LOk false TGet Served LOk TGet Served true.
Definition exLeft : world := Eval vm_compute in snd (uNew noCaps exStart).
Example C158_possible_ex : reachable goUnicode exAccd exLeft /\ goodEnv (gEnv Served Served Served LOk) /\
  mapPlus goUnicode exUid = Ok (exMapped, str "example.com") /\ getNym goUnicode exMapped (nDB exLeft) = Ok ([], []) /\
  nPriv exLeft = [mkRow exMapped 4 false] /\ canPay exAccd exLeft /\ canPay (str "UID") exLeft /\ canPay (str "Message") exLeft /\
  fst (uNew (gEnv Served Served Served LOk) exLeft) = Ok tt.
Proof.
  split; [apply (reach_step _ _ (NNew noCaps exUid (str "Alice") 1 2) exStart); [exact reach_exStart|]; vm_compute; reflexivity|].
  split; [repeat split|]. split; [vm_compute; reflexivity|]. split; [vm_compute; reflexivity|]. split; [reflexivity|].
  split; [exists (mkTok (str "a2") exAccd false); split; [reflexivity|vm_compute; intuition discriminate]|].
  split; [exists (mkTok (str "u1") (str "UID") false); split; [reflexivity|vm_compute; intuition discriminate]|].
  split; [exists (mkTok (str "m1") (str "Message") false); split; [reflexivity|vm_compute; intuition discriminate]|].
  vm_compute. reflexivity.
Qed.
Example C158_taken_ex : In (exMapped, 4) (nReg exInit) /\ mapPlus goUnicode exUid = Ok (exMapped, str "example.com").
Proof. split; [left; reflexivity|vm_compute; reflexivity]. Qed.

(* ------------------------------------------------------------------ *)
(* C159: is a refused registration reported? *)
Definition regErrs : list String.string := [errRegistered; errReg; errRegLost].
Lemma getTok_err u o w s w' : getTok u o w = (Err s, w') -> ~ In s regErrs.
Proof.
  unfold getTok. destruct o.
  - unfold mbind, mget_, lockTok, mmod, mret, mfail. destruct (find _ _); intros H; [discriminate H|]. injection H as <- <-. cbn; intuition discriminate.
  - intros H. injection H as <- <-. cbn; intuition discriminate.
  - intros H. discriminate H.
Qed.
Lemma keyInit_err e id ce al w s w' : keyInitAndQuit e id ce al w = (Err s, w') -> In s regErrs ->
  ce = Some s /\ al = true /\ exists r, privUID id w = Some r /\ isRegKey id (pKey r) w = true.
Proof.
  intros H IS. unfold keyInitAndQuit in H. unfold mbind at 1 in H. destruct (getTok (str "Message") (neTok3 e) w) as [[[h|]|s1|] w1] eqn:GT.
  - apply getTok_ok in GT as [_ [[k [F <-]] ->]]. unfold mbind at 1 in H. destruct al.
    + unfold addKeyInit in H. unfold mbind at 1, mget_ in H.
      change (privUID id (setTok (map (setLocked true (kHash k)) (nTok w)) w)) with (privUID id w) in H.
      destruct (privUID id w) as [r|] eqn:P; [|unfold mret in H; injection H as <- <-; exfalso; revert IS; cbn; intuition discriminate].
      unfold mbind at 1 in H. unfold serve in H.
      change (isRegKey id (pKey r) (setTok (map (setLocked true (kHash k)) (nTok w)) w)) with (isRegKey id (pKey r) w) in H.
      destruct (neInit e) eqn:NI.
      * injection H as <- <-. exfalso. revert IS; cbn; intuition discriminate.
      * injection H as <- <-. exfalso. revert IS; cbn; intuition discriminate.
      * destruct (spendable _ _) in H; [destruct (isRegKey id (pKey r) w) eqn:RK|]; cbn [andb] in H.
        -- unfold mbind, mmod, mret, delTok in H. cbn [live negb] in H. destruct (neQuit e); cbn [negb] in H.
           ++ destruct ce; [|discriminate H]. injection H as <- <-. eauto.
           ++ injection H as <- <-. exfalso. revert IS; cbn; intuition discriminate.
        -- injection H as <- <-. exfalso. revert IS; cbn; intuition discriminate.
        -- injection H as <- <-. exfalso. revert IS; cbn; intuition discriminate.
      * unfold mret, mbind, delTok, mmod in H. cbn [live negb] in H. injection H as <- <-. exfalso. revert IS; cbn; intuition discriminate.
      * unfold mret, mbind, delTok, mmod in H. cbn [live negb] in H. injection H as <- <-. exfalso. revert IS; cbn; intuition discriminate.
    + unfold mret, mbind, delTok, mmod in H. cbn [live negb] in H. injection H as <- <-. exfalso. revert IS; cbn; intuition discriminate.
  - discriminate H.
  - injection H as <- <-. exfalso. exact (getTok_err _ _ _ _ _ GT IS).
  - discriminate H.
Qed.
Lemma newUID_err U e id w s : Wf U w -> fst (mutecryptNewUID e id w) = Err s -> ~ In s regErrs.
Proof.
  intros W H IS. destruct (mutecryptNewUID e id w) as [r w'] eqn:E. cbn [fst] in H. subst r. unfold mutecryptNewUID in E.
  destruct (neStart e); cbn [negb] in E; [|injection E as <- _; revert IS; cbn; intuition discriminate].
  unfold mbind at 1 in E. unfold generate in E. destruct (neGen e).
  2-3: unfold mret in E; injection E as <- _; revert IS; cbn; intuition discriminate.
  unfold mbind at 1, mmod, mret at 1 in E. destruct (neCaps e); cbn [negb] in E; [|injection E as <- _; revert IS; cbn; intuition discriminate].
  unfold mbind at 1 in E. assert (W1 := wf_getTok U (str "UID") (neTok2 e) _ (w_row U id _ W)).
  destruct (getTok (str "UID") (neTok2 e) (addRow id w)) as [[[h|]|s1|] w1] eqn:GT; cbn [snd] in W1.
  2: discriminate E. 2: injection E as <- _; exact (getTok_err _ _ _ _ _ GT IS). 2: discriminate E.
  unfold mbind at 1 in E. assert (W2 := wf_register U (neReg e) id h _ W1).
  destruct (register (neReg e) id h w1) as [[a|s2|] w2] eqn:RG; cbn [snd] in W2.
  2-3: exfalso; revert RG; unfold register, mbind at 1, mget_; destruct (privUID id w1); [|discriminate]; destruct (pReplied _); [discriminate|];
    unfold mbind; match goal with |- context [serve ?r ?h ?x ?y ?a ?b ?w] => destruct (serve_ok r h x y a b w) as [q [wq EQ]]; rewrite EQ end; destruct q; discriminate.
  destruct a as [|s3|].
  - unfold mbind at 1, delTok, mmod in E. apply keyInit_err in E as [E _]; [discriminate E|exact IS].
  - unfold mbind at 1, lockTok, mmod at 1 in E. unfold mbind at 1, deleteUID in E. destruct (neDel e).
    + unfold mbind at 1, mget_ in E.
      set (w3 := setTok (map (setLocked false h) (nTok w2)) w2) in E. assert (W3 : Wf U w3) by (apply w_lock; exact W2).
      destruct (privUID id w3) as [r|] eqn:P; [|unfold mret in E; injection E as <- _; revert IS; cbn; intuition discriminate].
      unfold mbind, mmod, mret at 1 in E. apply keyInit_err in E as [_ [_ [r' [P' RK]]]]; [|exact IS].
      apply isRegKey_In in RK. cbn [delPriv setPrivs nReg] in RK. apply privUID_In in P' as [I' ID']. cbn [delPriv setPrivs nPriv] in I'.
      apply filter_In in I' as [I' NE]. assert (Q : privUID (pId r') w3 = Some r') by (apply (wf_first _ _ W3); [exact I'|now rewrite ID']).
      rewrite ID', P in Q. injection Q as ->. now rewrite N.eqb_refl in NE.
    + unfold mret in E. injection E as <- _. revert IS; cbn; intuition discriminate.
    + unfold mret at 1 in E. apply keyInit_err in E as [_ [E _]]; [discriminate E|exact IS].
  - unfold mbind at 1, delTok, mmod in E. apply keyInit_err in E as [E _]; [discriminate E|exact IS].
Qed.
Lemma newUID_db e id w : nDB (snd (mutecryptNewUID e id w)) = nDB w.
Proof. symmetry. apply (s_newUID (fun a b => nDB a = nDB b)); auto. congruence. Qed.
Definition newTail U e id unm full minD maxD : M unit :=
  run _ <- onDB (addNym U id unm full);
  run _ <- onDB (addAccount U id [] (nePriv e) (neServer e) (neSecret e) minD maxD);
  run active <- (fun w => mlift (getValue activeKey (nDB w)) w);
  if isNil active then onDB (addValue activeKey unm) else mret tt.
(* uid new either ends before mutecrypt is started, or continues with it *)
Lemma uidNew_split U accd e u f a b w id d : mapPlus U u = Ok (id, d) ->
  (exists r w', uidNew U accd e u f a b w = (r, w') /\ nDB w' = nDB w /\ r <> Ok tt /\ (forall s, r = Err s -> ~ In s regErrs)) \/
  (exists w0 old of, uidNew U accd e u f a b w = mbind (mutecryptNewUID e id) (fun _ => newTail U e id u f a b) w0 /\ nDB w0 = nDB w /\
     getNym U id (nDB w) = Ok (old, of) /\ isNil old = true /\ (Wf U w -> Wf U w0)).
Proof.
  intros MP. enough (H : forall X, X = uidNew U accd e u f a b w ->
    (exists r w', X = (r, w') /\ nDB w' = nDB w /\ r <> Ok tt /\ (forall s, r = Err s -> ~ In s regErrs)) \/
    (exists w0 old of, X = mbind (mutecryptNewUID e id) (fun _ => newTail U e id u f a b) w0 /\ nDB w0 = nDB w /\
     getNym U id (nDB w) = Ok (old, of) /\ isNil old = true /\ (Wf U w -> Wf U w0))) by exact (H _ eq_refl). intros X.
  unfold uidNew. unfold mbind at 1, mlift at 1. rewrite MP. unfold mbind at 1, mneed, mlift at 1.
  destruct (neSync e); cbn [need].
  2: { intros EX. left. eexists _, _. split; [exact EX|]. split; [reflexivity|]. split; [discriminate|]. intros s E. injection E as <-. cbn; intuition discriminate. }
  unfold mbind at 1, mlift at 1. destruct (getNym U id (nDB w)) as [[old of]|s|] eqn:GN.
  2: { intros EX. left. eexists _, _. split; [exact EX|]. split; [reflexivity|]. split; [discriminate|]. intros s' E. injection E as <-.
    unfold getNym in GN. destruct (need (mapped U id) "ErrNotMapped") as [?|s'|] eqn:ND; cbn [rbind] in GN; [discriminate GN| |discriminate GN].
    injection GN as <-. unfold need in ND. destruct (mapped U id); [discriminate ND|]. injection ND as <-. cbn; intuition discriminate. }
  2: { intros EX. left. eexists _, _. split; [exact EX|]. split; [reflexivity|]. split; discriminate. }
  destruct (isNil old) eqn:NO; cbn [negb].
  2: { intros EX. left. eexists _, _. split; [exact EX|]. split; [reflexivity|]. split; [discriminate|]. intros s E. injection E as <-. cbn; intuition discriminate. }
  unfold mbind at 1, mget_ at 1. destruct (neSearch e && isReg id w).
  { intros EX. left. eexists _, _. split; [exact EX|]. split; [reflexivity|]. split; [discriminate|]. intros s E. injection E as <-. cbn; intuition discriminate. }
  unfold mbind at 1. assert (WT := wf_getTok U accd (neTok1 e) w).
  destruct (getTok accd (neTok1 e) w) as [[[h|]|s|] w1] eqn:GT; cbn [snd] in WT.
  - apply getTok_ok in GT as [_ [[k1 [F1 <-]] ->]]. unfold mbind at 1. unfold payAccount.
    set (w1 := setTok (map (setLocked true (kHash k1)) (nTok w)) w) in *.
    assert (PW : forall r w2, payAccount (nePay e) (nePriv e) (kHash k1) w1 = (Ok r, w2) -> nDB w2 = nDB w /\ (Wf U w -> Wf U w2)).
    { unfold payAccount, serve. intros r w2. destruct (spendable (kHash k1) w1) eqn:SP; cbn [andb]; destruct (nePay e); intros E; injection E as <- <-; (split; [reflexivity|]);
        intros W; try (now apply WT); apply w_acct; try exact SP; now apply WT. }
    unfold payAccount in PW. match goal with |- context [serve ?r ?h ?x ?y ?a ?b ?w] => destruct (serve_ok r h x y a b w) as [q [wq EQ]]; rewrite EQ in *; destruct (PW _ _ eq_refl) as [D2 W2] end.
    destruct q as [|s|].
    + unfold mbind at 1, delTok, mmod at 1. unfold mbind at 1, mlift at 1. destruct (neAddr e); cbn [need].
      * intros EX. right. eexists _, old, of. split; [exact EX|]. split; [exact D2|]. split; [reflexivity|]. split; [exact NO|]. intros W. apply w_del. now apply W2.
      * intros EX. left. eexists _, _. split; [exact EX|]. split; [exact D2|]. split; [discriminate|]. intros s E. injection E as <-. cbn; intuition discriminate.
    + intros EX. left. eexists _, _. split; [exact EX|]. split; [exact D2|]. split; [discriminate|]. intros s' E. injection E as <-.
      revert EQ. unfold serve. destruct (nePay e); try destruct (_ && _); intros EQ; first [discriminate EQ|injection EQ as Q1 Q2; subst s]; cbn; intuition discriminate.
    + intros EX. left. eexists _, _. split; [exact EX|]. split; [exact D2|]. split; [discriminate|]. intros s' E. injection E as <-. cbn; intuition discriminate.
  - intros EX. left. eexists _, _. split; [exact EX|]. assert (w1 = w). { revert GT. unfold getTok. destruct (neTok1 e); [|discriminate|now intros H; injection H]. unfold mbind, mget_, lockTok, mmod, mret. destruct (find _ _); discriminate. }
    subst. split; [reflexivity|]. split; discriminate.
  - intros EX. left. eexists _, _. split; [exact EX|]. assert (w1 = w). { revert GT. unfold getTok. destruct (neTok1 e); [|now intros H; injection H|discriminate]. unfold mbind, mget_, lockTok, mmod, mret, mfail. destruct (find _ _); [discriminate|]. now intros H; injection H. }
    subst. split; [reflexivity|]. split; [discriminate|]. intros s' E. injection E as <-. exact (getTok_err _ _ _ _ _ GT).
  - exfalso. revert GT. unfold getTok. destruct (neTok1 e); [|discriminate|discriminate]. unfold mbind, mget_, lockTok, mmod, mret, mfail. destruct (find _ _); discriminate.
Qed.
Lemma newTail_ok U e id d unm full minD maxD w : Inv U (nDB w) -> mapPlus U unm = Ok (id, d) -> mapped U id = true ->
  tmin (fun _ n => beq (nMapped n) id) (dbNyms (nDB w)) = None -> fst (newTail U e id unm full minD maxD w) = Ok tt.
Proof.
  intros V MP MM TN. destruct (dbs_go U id d unm full (nePriv e) (neServer e) (neSecret e) minD maxD (nDB w) V MP MM TN) as [db1 [db2 [D1 [D2 KV]]]].
  unfold newTail. unfold mbind at 1, onDB at 1. rewrite D1. unfold mbind at 1, onDB at 1. cbn [setDB nDB]. rewrite D2.
  unfold mbind at 1, mlift at 1. cbn [setDB nDB]. unfold getValue. change (negb (isNil activeKey)) with true. cbn [need rbind].
  destruct (isNil _); [|reflexivity]. unfold onDB, addValue. change (negb (isNil activeKey)) with true.
  assert (U0 : isNil unm = false) by (destruct unm; [discriminate MP|reflexivity]). rewrite U0. reflexivity.
Qed.
(* no error of the registration ever reaches the user *)
Theorem C159_never : forall U accd e unm full minD maxD id d w s, reachable U accd w -> mapPlus U unm = Ok (id, d) ->
  In s [errRegistered; errReg; errRegLost] -> fst (uidNew U accd e unm full minD maxD w) <> Err s.
Proof.
  intros U accd e unm full minD maxD id d w s RE MP IS H. apply reach_wf in RE.
  destruct (uidNew_split U accd e unm full minD maxD w id d MP) as [[r [w' [E [_ [_ Q]]]]]|[w0 [old [of [E [DB [GN [NO WW]]]]]]]].
  - rewrite E in H. cbn [fst] in H. subst r. exact (Q s eq_refl IS).
  - rewrite E in H. clear E. specialize (WW RE). unfold mbind in H. assert (ND := newUID_db e id w0).
    destruct (mutecryptNewUID e id w0) as [[[]|s1|] w1] eqn:E1; cbn [snd] in ND.
    + destruct (unknownNym _ _ _ _ _ (wf_db _ _ RE) GN NO) as [MM TN].
      rewrite (newTail_ok U e id d unm full minD maxD w1) in H; [discriminate H| |exact MP|exact MM|]; rewrite ND, DB; [apply (wf_db _ _ RE)|exact TN].
    + cbn [fst] in H. injection H as ->. apply (newUID_err U e id w0 s WW); [now rewrite E1|exact IS].
    + discriminate H.
Qed.
Example C159_never_ex : reachable goUnicode exAccd exStart /\ register Refused exMapped (str "u1") (addRow exMapped exStart) = (Ok (ALine errReg), addRow exMapped exStart) /\
  fst (uNew (gEnv Served Refused Served LOk) exStart) = Err errNoPriv.
Proof. split; [exact reach_exStart|]. split; vm_compute; reflexivity. Qed.
(* the user is told something else, and the second token stays locked *)
Theorem C159_refuted : exists e w w', reachable goUnicode exAccd w /\ neReg e = Refused /\ uNew e w = (Err errNoPriv, w') /\
  In (mkTok (str "u1") (str "UID") false) (nTok w') /\ In (mkTok (str "m1") (str "Message") true) (nTok w') /\ ~ In (str "m1") (nSpent w').
Proof.
  exists (gEnv Served Refused Served LOk), exStart, (snd (uNew (gEnv Served Refused Served LOk) exStart)). split; [exact reach_exStart|]. split; [reflexivity|].
  split; [vm_compute; reflexivity|]. split; [vm_compute; auto|]. split; [vm_compute; auto|]. vm_compute. intuition discriminate.
Qed.

(* ------------------------------------------------------------------ *)
(* C160: the active nym exists *)
Definition activeOk U (w : world) : Prop := forall v, getValue (str "ActiveUID") (nDB w) = Ok v -> v <> [] ->
  exists id u f, imap U v = Ok id /\ getNym U id (nDB w) = Ok (u, f) /\ u <> [].
Definition deletesActive U (w : world) (o : nop) : Prop :=
  match o with NDelete _ u => exists v id, getValue (str "ActiveUID") (nDB w) = Ok v /\ imap U v = Ok id /\ imap U u = Ok id | _ => False end.
Lemma getNym_addNym U id u f db db' x : Inv U db -> addNym U id u f db = Ok db' -> forall a b, getNym U x db = Ok (a, b) -> a <> [] ->
  exists a' b', getNym U x db' = Ok (a', b') /\ a' <> [].
Proof.
  intros V A a b G NE. assert (V' := Inv_addNym _ _ _ _ _ _ V A). unfold getNym in *.
  destruct (need (mapped U x) "ErrNotMapped") as [?|?|] eqn:ND; [cbn [rbind] in *|discriminate G|discriminate G]. apply Ok_eq in G.
  destruct (tmin (fun _ n => beq (nMapped n) x) (dbNyms db)) as [[i n]|] eqn:T; [|injection G as <- _; now elim NE].
  apply tmin_some in T as [I E]. cbn [fst snd] in E. apply beq_spec in E.
  assert (H : exists m, In (i, m) (dbNyms db') /\ nMapped m = x).
  { unfold addNym in A. apply dbind_ok in A as [? [_ A]]. apply dbind_ok in A as [? [_ A]]. apply dbind_ok in A as [? [_ A]]. apply dbind_ok in A as [? [_ A]]. apply dbind_ok in A as [? [_ A]].
    destruct (thas _ _) in A; apply dbind_ok in A as [? [_ A]]; apply Ok_eq in A; subst db'; cbn [withNyms dbNyms].
    - exists (if beq (nMapped n) id then mkNym (nMapped n) u f (nUpAll n) (nUpAcc n) else n). split.
      + apply In_tupd. exists (i, n). split; [exact I|]. cbn [fst snd]. now destruct (beq _ _).
      + now destruct (beq (nMapped n) id).
    - exists n. split; [apply In_tins; now left|exact E]. }
  destruct H as [m [I' E']]. destruct (tmin (fun _ n => beq (nMapped n) x) (dbNyms db')) as [[j q]|] eqn:T'.
  - exists (nUnmapped q), (nFull q). split; [reflexivity|]. apply tmin_some in T' as [J _]. destruct (iv_nyms _ _ V') as [_ [F _]]. rewrite Forall_forall in F. exact (proj2 (proj2 (F _ J))).
  - pose proof (tmin_none _ _ T' _ I') as Q. cbn [fst snd] in Q. rewrite E', beq_refl in Q. discriminate Q.
Qed.
Lemma addNym_kv U id u f db db' : addNym U id u f db = Ok db' -> dbKV db' = dbKV db.
Proof.
  intros A. unfold addNym in A. apply dbind_ok in A as [? [_ A]]. apply dbind_ok in A as [? [_ A]]. apply dbind_ok in A as [? [_ A]]. apply dbind_ok in A as [? [_ A]]. apply dbind_ok in A as [? [_ A]].
  destruct (thas _ _) in A; apply dbind_ok in A as [? [_ A]]; apply Ok_eq in A; subst db'; reflexivity.
Qed.
Lemma getValue_kv k db db' : dbKV db' = dbKV db -> getValue k db' = getValue k db.
Proof. intros E. unfold getValue. now rewrite E. Qed.
Lemma getNym_nyms U x db db' : dbNyms db' = dbNyms db -> getNym U x db' = getNym U x db.
Proof. intros E. unfold getNym. now rewrite E. Qed.
Lemma delNym_dbs U id db db' : delNym U id db = Ok db' -> exists i, qNymUID id db = Ok i /\ dbNyms db' = tdel (fun j _ => j =? i) (dbNyms db) /\ dbKV db' = dbKV db.
Proof.
  intros D. unfold delNym in D. apply dbind_ok in D as [? [_ D]]. apply dbind_ok in D as [[u f] [_ D]]. apply dbind_ok in D as [? [_ D]].
  apply dbind_ok in D as [i [Q D]]. apply dbind_ok in D as [? [_ D]]. apply Ok_eq in D. subst db'. exists i. repeat split. exact Q.
Qed.
Lemma delNym_other U id db db' x : Inv U db -> delNym U id db = Ok db' -> x <> id -> getNym U x db' = getNym U x db.
Proof.
  intros V D NE. apply delNym_dbs in D as [i [Q [E _]]]. unfold getNym. rewrite E.
  rewrite (tmin_view _ (fun _ n => beq (nMapped n) x) (dbNyms db)); [reflexivity| |auto].
  apply tsel_tdel_other. intros j n I J. apply N.eqb_eq in J. subst j. apply beq_neq. intros EQ. apply NE. rewrite <- EQ.
  apply qNymUID_ok in Q as [m [I' <-]]. destruct (iv_nyms _ _ V) as [O _]. now rewrite (idsOk_unique _ _ _ _ O I I').
Qed.
Lemma delNym_gone U id db db' : Inv U db -> delNym U id db = Ok db' -> mapped U id = true -> getNym U id db' = Ok ([], []).
Proof.
  intros V D MM. apply delNym_dbs in D as [i [Q [E _]]]. unfold getNym. rewrite MM, E. cbn [need rbind].
  rewrite tmin_none_intro; [reflexivity|]. intros [j n] I. apply In_tdel in I as [I J]. cbn [fst snd] in *. apply beq_neq. intros EQ.
  destruct (iv_nyms _ _ V) as [O [_ ND]]. apply qNymUID_ok in Q as [m [I' EM]].
  assert (X : (j, n) = (i, m)) by (apply (NoDup_key _ _ _ _ ND I I'); cbn [snd]; congruence). injection X as -> ->. now rewrite N.eqb_refl in J.
Qed.
Lemma delete_db o id w : nDB (snd (deleteUID o id w)) = nDB w.
Proof. symmetry. apply (s_delete (fun a b => nDB a = nDB b)); auto. Qed.
Lemma delAccts_db ok ks w : nDB (snd (deleteAccounts ok ks w)) = nDB w.
Proof. symmetry. apply (s_delAccts (fun a b => nDB a = nDB b)); auto. congruence. Qed.
(* the database after uid delete: unchanged, or without the nym *)
Lemma uidDelete_db U e u w r w' : uidDelete U e u w = (r, w') -> nDB w' = nDB w \/ exists id, imap U u = Ok id /\ delNym U id (nDB w) = Ok (nDB w').
Proof.
  unfold uidDelete. unfold mbind at 1, mlift at 1. destruct (imap U u) as [id|s|] eqn:IM; [|intros H; injection H as _ <-; now left|intros H; injection H as _ <-; now left].
  unfold mbind at 1, mlift at 1. destruct (getNym U id (nDB w)) as [[old of]|s|]; [|intros H; injection H as _ <-; now left|intros H; injection H as _ <-; now left].
  destruct (isNil old); [intros H; injection H as _ <-; now left|]. unfold mbind at 1, mlift.
  destruct (do cs <- getAccounts U id (nDB w); accountKeys U id cs (nDB w)) as [ks|s|]; [|intros H; injection H as _ <-; now left|intros H; injection H as _ <-; now left].
  unfold mbind at 1, onDB. destruct (delNym U id (nDB w)) as [db|s|] eqn:D; [|intros H; injection H as _ <-; now left|intros H; injection H as _ <-; now left].
  intros H. right. exists id. split; [reflexivity|]. rewrite D. f_equal. unfold mbind in H. assert (DD := delete_db (deProc e) id (setDB db w)).
  destruct (deleteUID (deProc e) id (setDB db w)) as [[a|s|] w1]; cbn [snd setDB nDB] in DD.
  - destruct a.
    + assert (AD := delAccts_db (deAcc e) ks w1). rewrite H in AD. cbn [snd] in AD. congruence.
    + injection H as _ <-. congruence.
    + injection H as _ <-. congruence.
  - injection H as _ <-. congruence.
  - injection H as _ <-. congruence.
Qed.
Theorem C160_step : forall U accd o w, reachable U accd w -> activeOk U w -> ~ deletesActive U w o -> activeOk U (nstep U accd w o).
Proof.
  intros U accd o w RE A ND. apply reach_wf in RE. assert (V := wf_db _ _ RE).
  assert (SAME : forall w', nDB w' = nDB w -> activeOk U w') by (intros w' E; unfold activeOk in *; now rewrite E).
  assert (ADD : forall w' id u f, addNym U id u f (nDB w) = Ok (nDB w') -> activeOk U w').
  { intros w' id u f E v GV NE. rewrite (getValue_kv _ _ _ (addNym_kv _ _ _ _ _ _ E)) in GV. destruct (A v GV NE) as [i [a [b [IM [G N]]]]].
    destruct (getNym_addNym _ _ _ _ _ _ _ V E _ _ G N) as [a' [b' [G' N']]]. eauto 7. }
  unfold nstep. destruct o as [e u f a b|u f|u|e u|h u|]; cbn [nexec].
  - destruct (mapPlus U u) as [[id d]|s|] eqn:MP.
    2-3: apply SAME; unfold uidNew, mbind, mlift; rewrite MP; reflexivity.
    destruct (uidNew_split U accd e u f a b w id d MP) as [[r [w' [E [DB _]]]]|[w0 [old [of [E [DB [GN [NO WW]]]]]]]]; rewrite E; [now apply SAME|].
    clear E. unfold mbind. assert (NDB := newUID_db e id w0). destruct (mutecryptNewUID e id w0) as [[[]|s1|] w1] eqn:E1; cbn [snd] in *.
    2-3: apply SAME; congruence.
    destruct (unknownNym _ _ _ _ _ V GN NO) as [MM TN]. assert (D1 : nDB w1 = nDB w) by congruence.
    destruct (dbs_go U id d u f (nePriv e) (neServer e) (neSecret e) a b (nDB w) V MP MM TN) as [db1 [db2 [A1 [A2 KV]]]].
    unfold newTail. unfold mbind at 1, onDB at 1. rewrite D1, A1. unfold mbind at 1, onDB at 1. cbn [setDB nDB]. rewrite A2.
    assert (N2 : dbNyms db2 = dbNyms db1).
    { unfold addAccount in A2. apply dbind_ok in A2 as [[x y] [_ A2]]. apply dbind_ok in A2 as [? [_ A2]]. apply Ok_eq in A2. now subst. }
    unfold mbind at 1, mlift at 1. cbn [setDB nDB]. destruct (getValue activeKey db2) as [v|s|] eqn:GV.
    + assert (GV' : getValue activeKey (nDB w) = Ok v) by (rewrite <- GV; symmetry; now apply getValue_kv).
      destruct (isNil v) eqn:NV.
      * unfold onDB, addValue. change (negb (isNil activeKey)) with true. assert (U0 : isNil u = false) by (destruct u; [discriminate MP|reflexivity]). rewrite U0. cbn [negb need rbind snd setDB nDB].
        intros v' G' NE'. cbn [nDB setDB] in G'. unfold getValue in G'. change (negb (isNil (str "ActiveUID"))) with true in G'. cbn [need rbind withKV dbKV] in G'. unfold activeKey in G'. rewrite mget_mset_same in G'. apply Ok_eq in G'. subst v'.
        exists id, u, f. split; [now apply mapPlus_imap in MP|]. split; [|destruct u; [discriminate U0|discriminate]]. cbn [setDB nDB].
        rewrite (getNym_nyms _ _ db1) by exact N2. apply (addNym_new _ _ _ _ _ _ V TN) in A1. subst db1.
        unfold getNym. rewrite MM. cbn [need rbind withNyms dbNyms]. rewrite tmin_new; [reflexivity|apply (iv_nyms _ _ V)|exact TN|apply beq_refl].
      * cbn [mret snd]. intros v' G' NE'. cbn [nDB setDB] in G'. change (str "ActiveUID") with activeKey in G'. rewrite GV in G'. apply Ok_eq in G'. subst v'.
        destruct (A v GV' NE') as [i [p [q [IM [G N]]]]]. destruct (getNym_addNym _ _ _ _ _ _ _ V A1 _ _ G N) as [a' [b' [G' N']]].
        exists i, a', b'. split; [exact IM|]. split; [|exact N']. cbn [nDB setDB]. now rewrite (getNym_nyms _ _ db1).
    + exfalso. revert GV. unfold getValue. change (negb (isNil activeKey)) with true. discriminate.
    + exfalso. revert GV. unfold getValue. change (negb (isNil activeKey)) with true. discriminate.
  - unfold uidEdit. unfold mbind at 1, mlift at 1. destruct (imap U u) as [id|s|]; [|now apply SAME|now apply SAME].
    unfold mbind at 1, mlift at 1. destruct (getNym U id (nDB w)) as [[old of]|s|]; [|now apply SAME|now apply SAME].
    destruct (isNil old); [now apply SAME|]. unfold onDB. destruct (addNym U id u f (nDB w)) as [db|s|] eqn:E; [|now apply SAME|now apply SAME].
    cbn [snd]. now apply (ADD _ id u f).
  - unfold uidSwitch. unfold mbind at 1, mlift at 1. destruct (imap U u) as [id|s|] eqn:IM; [|now apply SAME|now apply SAME].
    unfold mbind at 1, mlift at 1. destruct (getNym U id (nDB w)) as [[old of]|s|] eqn:GN; [|now apply SAME|now apply SAME].
    destruct (isNil old) eqn:NO; [now apply SAME|]. unfold onDB. destruct (addValue activeKey id (nDB w)) as [db|s|] eqn:E; [|now apply SAME|now apply SAME].
    cbn [snd]. unfold addValue in E. apply dbind_ok in E as [? [_ E]]. apply dbind_ok in E as [? [_ E]]. apply Ok_eq in E. subst db.
    intros v GV NE. cbn [nDB setDB] in GV. unfold getValue in GV. change (negb (isNil (str "ActiveUID"))) with true in GV. cbn [need rbind withKV dbKV] in GV. unfold activeKey in GV. rewrite mget_mset_same in GV. apply Ok_eq in GV. subst v.
    exists id, old, of. split; [|split; [exact GN|intros ->; discriminate NO]].
    unfold getNym in GN. apply dbind_ok in GN as [? [MM _]]. apply need_ok in MM. unfold mapped, isMapped in MM. destruct (imap U id); [|discriminate MM|discriminate MM]. apply beq_spec in MM. now subst.
  - destruct (uidDelete U e u w) as [r w'] eqn:E. cbn [snd]. apply uidDelete_db in E as [E|[id [IM E]]]; [now apply SAME|].
    intros v GV NE. destruct (delNym_dbs _ _ _ _ E) as [j [_ [_ KV]]]. rewrite (getValue_kv _ _ _ KV) in GV. destruct (A v GV NE) as [i [p [q [IV [G N]]]]].
    exists i, p, q. split; [exact IV|]. split; [|exact N]. rewrite (delNym_other _ _ _ _ _ V E); [exact G|].
    intros ->. apply ND. exists v, id. auto.
  - apply SAME. cbn [mmod snd]. now destruct (knownHash h w).
  - now apply SAME.
Qed.
Inductive keeping U accd : list nop -> world -> Prop :=
| kp_nil w : keeping U accd [] w
| kp_cons o ops w : ~ deletesActive U w o -> keeping U accd ops (nstep U accd w o) -> keeping U accd (o :: ops) w.
Theorem C160_partial : forall U accd others k ops, NoDup (map fst others) -> Forall (fun r => snd r < k) others ->
  keeping U accd ops (freshWorld others k) -> activeOk U (nrun U accd ops (freshWorld others k)).
Proof.
  intros U accd others k ops N F K.
  assert (G : forall ops w, reachable U accd w -> activeOk U w -> keeping U accd ops w -> activeOk U (nrun U accd ops w)).
  { clear. induction ops as [|o ops IH]; intros w RE A K; [exact A|]. inversion_clear K as [|? ? ? ND K']. cbn [nrun fold_left]. apply IH; [|now apply C160_step|exact K'].
    now apply (reach_step U accd o w). }
  apply G; [exists others, k, []; auto| |exact K]. intros v GV NE. cbv in GV. apply Ok_eq in GV. congruence.
Qed.
Definition exDel : denv := mkDenv LOk (fun _ => true).
Example C160_partial_ex : keeping goUnicode exAccd (buys ++ [NNew (gEnv Served Served Served LOk) exUid (str "Alice") 1 2; NSwitch exUid; NEdit exUid (str "A")]) (freshWorld [(str "bob@example.com", 3)] 4) /\
  getValue (str "ActiveUID") (nDB exMade) = Ok exUid /\ getNym goUnicode exMapped (nDB exMade) = Ok (exUid, str "Alice").
Proof.
  split; [repeat (apply kp_cons; [intros []|]); apply kp_nil|]. split; vm_compute; reflexivity.
Qed.
Definition exDeleted : world := Eval vm_compute in snd (uidDelete goUnicode exDel exUid exMade).
Lemma reach_exMade : reachable goUnicode exAccd exMade.
Proof. apply (reach_step _ _ (NNew (gEnv Served Served Served LOk) exUid (str "Alice") 1 2) exStart); [exact reach_exStart|]. vm_compute. reflexivity. Qed.
(* deleting the active nym leaves it active *)
Theorem C160_refuted : exists w o, reachable goUnicode exAccd w /\ activeOk goUnicode w /\ fst (nexec goUnicode exAccd o w) = Ok tt /\ ~ activeOk goUnicode (nstep goUnicode exAccd w o).
Proof.
  exists exMade, (NDelete exDel exUid). split; [exact reach_exMade|]. split.
  - intros v GV _. vm_compute in GV. apply Ok_eq in GV. subst v. exists exMapped, exUid, (str "Alice"). split; [vm_compute; reflexivity|]. split; [vm_compute; reflexivity|discriminate].
  - split; [vm_compute; reflexivity|]. intros A.
    assert (E : nstep goUnicode exAccd exMade (NDelete exDel exUid) = exDeleted) by (vm_compute; reflexivity). rewrite E in A. clear E.
    destruct (A exUid) as [id [u [f [IM [G N]]]]]; [vm_compute; reflexivity|discriminate|].
    assert (X : imap goUnicode exUid = Ok exMapped) by (vm_compute; reflexivity). rewrite X in IM. apply Ok_eq in IM. subst id.
    assert (Y : getNym goUnicode exMapped (nDB exDeleted) = Ok ([], [])) by (vm_compute; reflexivity). rewrite Y in G. apply Ok_eq in G. congruence.
Qed.

(* ------------------------------------------------------------------ *)
(* C161: uid delete *)
Lemma delAccts_ok ok ks w w' : deleteAccounts ok ks w = (Ok tt, w') -> nPriv w' = nPriv w /\ nReg w' = nReg w /\ nTok w' = nTok w /\
  (forall k, In k ks -> ~ In k (nAcct w')) /\ (forall k, In k (nAcct w') <-> In k (nAcct w) /\ ~ In k ks).
Proof.
  revert w. induction ks as [|k ks IH]; intros w; cbn [deleteAccounts].
  - intros H. injection H as <-. cbn [In]. intuition.
  - destruct (ok k); [|intros H; discriminate H]. intros H. apply mbind_ok in H as [[] [w1 [E H]]]. injection E as <-.
    destruct (IH _ H) as [A [B [C [D E]]]]. cbn [dropAcct nPriv nReg nTok nAcct] in *.
    assert (F : forall x, In x (nAcct w') <-> In x (nAcct w) /\ ~ In x (k :: ks)).
    { intros x. rewrite E, filter_In, negb_true_iff. rewrite beq_neq. cbn [In]. intuition congruence. }
    split; [exact A|]. split; [exact B|]. split; [exact C|]. split; [|exact F]. intros x I J. apply F in J. tauto.
Qed.
Lemma accountKeys_In U id cs db ks c pk x1 x2 x3 x4 x5 : accountKeys U id cs db = Ok ks -> In c cs ->
  getAccount U id c db = Ok (pk, x1, x2, x3, x4, x5) -> In pk ks.
Proof.
  revert ks. induction cs as [|c' cs IH]; intros ks H I G; [destruct I|]. cbn [accountKeys] in H. destruct I as [->|I].
  - rewrite G in H. cbn [rbind] in H. apply dbind_ok in H as [r [_ H]]. apply Ok_eq in H as <-. now left.
  - apply dbind_ok in H as [[[[[[p y1] y2] y3] y4] y5] [_ H]]. apply dbind_ok in H as [r [E H]]. apply Ok_eq in H as <-. right. eapply IH; eassumption.
Qed.
Theorem C161_removed : forall U accd e unm w w', reachable U accd w -> uidDelete U e unm w = (Ok tt, w') ->
  exists id r cs, imap U unm = Ok id /\ privUID id w = Some r /\ getAccounts U id (nDB w) = Ok cs /\
    getNym U id (nDB w') = Ok ([], []) /\ (forall x, x <> id -> getNym U x (nDB w') = getNym U x (nDB w)) /\
    (forall x, In x (nPriv w') <-> In x (nPriv w) /\ x <> r) /\
    (forall c pk x1 x2 x3 x4 x5, In c cs -> getAccount U id c (nDB w) = Ok (pk, x1, x2, x3, x4, x5) -> ~ In pk (nAcct w')) /\
    incl (nAcct w') (nAcct w) /\ nReg w' = nReg w /\ nTok w' = nTok w.
Proof.
  intros U accd e unm w w' RE H. apply reach_wf in RE. assert (V := wf_db _ _ RE). unfold uidDelete in H.
  apply mbind_ok in H as [id [w1 [E H]]]. unfold mlift in E. apply pair_equal_spec in E as [IM <-].
  apply mbind_ok in H as [[old of] [w1 [E H]]]. unfold mlift in E. apply pair_equal_spec in E as [GN <-].
  destruct (isNil old) eqn:NO; [discriminate H|].
  apply mbind_ok in H as [ks [w1 [E H]]]. unfold mlift in E. apply pair_equal_spec in E as [AK <-]. apply dbind_ok in AK as [cs [GA AK]].
  apply mbind_ok in H as [[] [w1 [E H]]]. unfold onDB in E. destruct (delNym U id (nDB w)) as [db|s|] eqn:D; [|discriminate E|discriminate E]. injection E as <-.
  apply mbind_ok in H as [a [w1 [E H]]]. destruct a; [|discriminate H|discriminate H].
  unfold deleteUID in E. destruct (deProc e); [|discriminate E|discriminate E]. apply mbind_ok in E as [r [w2 [E G]]]. injection E as <- <-.
  change (privUID id (setDB db w)) with (privUID id w) in G. destruct (privUID id w) as [r|] eqn:P; [|discriminate G].
  apply mbind_ok in G as [[] [w2 [E G]]]. injection E as <-. injection G as <-.
  assert (AD := delAccts_db (deAcc e) ks (delPriv (pKey r) (setDB db w))). rewrite H in AD. cbn [snd delPriv setPrivs setDB nDB] in AD.
  apply delAccts_ok in H as [A1 [A2 [A3 [A4 A5]]]].
  assert (MM : mapped U id = true). { unfold getNym in GN. apply dbind_ok in GN as [? [MM _]]. now apply need_ok in MM. }
  exists id, r, cs. split; [exact IM|]. split; [exact P|]. split; [exact GA|]. rewrite AD.
  split; [now apply (delNym_gone U id (nDB w))|]. split; [intros x NE; now apply (delNym_other U id)|].
  split. { intros x. rewrite A1. cbn [delPriv setPrivs setDB nPriv]. rewrite filter_In, negb_true_iff, N.eqb_neq. apply privUID_In in P as [IP _].
    split; intros [X Y]; (split; [exact X|]); [congruence|]. intros E. apply Y. apply (NoDup_map_inj pKey (nPriv w)); auto. apply (wf_keys _ _ RE). }
  split. { intros c pk x1 x2 x3 x4 x5 I G. apply A4. eapply accountKeys_In; eassumption. }
  split; [intros x I; apply A5 in I; apply I|]. split; [exact A2|exact A3].
Qed.
Example C161_ex : reachable goUnicode exAccd exMade /\ uidDelete goUnicode exDel exUid exMade = (Ok tt, exDeleted) /\ nAcct exMade = [repeat 7 64] /\ nAcct exDeleted = [] /\
  nPriv exMade = [mkRow exMapped 4 true] /\ nPriv exDeleted = [].
Proof. split; [exact reach_exMade|]. repeat split; vm_compute; reflexivity. Qed.
(* mutecrypt fails: the keys and the account stay, and uid delete cannot be repeated.  Or a key generated by an earlier,
   failed uid new stays although uid delete succeeds *)
Definition exLeftMade : world := Eval vm_compute in snd (uNew (gEnv Served Served Served LOk) exLeft).
Lemma reach_exLeftMade : reachable goUnicode exAccd exLeftMade.
Proof.
  apply (reach_step _ _ (NNew (gEnv Served Served Served LOk) exUid (str "Alice") 1 2) exLeft); [exact (proj1 C158_possible_ex)|]. vm_compute. reflexivity.
Qed.
Theorem C161_refuted : exists w1 w1' w2 w2', reachable goUnicode exAccd w1 /\ reachable goUnicode exAccd w2 /\
  (exists s, uidDelete goUnicode (mkDenv LErr (fun _ => true)) exUid w1 = (Err s, w1')) /\ nPriv w1' = nPriv w1 /\ nPriv w1 <> [] /\ nAcct w1' = nAcct w1 /\ nAcct w1 <> [] /\
  fst (uidDelete goUnicode exDel exUid w1') = Err "ctrlengine: user ID unknown"%string /\
  uidDelete goUnicode exDel exUid w2 = (Ok tt, w2') /\ nPriv w2' = [mkRow exMapped 5 false].
Proof.
  exists exMade, (snd (uidDelete goUnicode (mkDenv LErr (fun _ => true)) exUid exMade)), exLeftMade, (snd (uidDelete goUnicode exDel exUid exLeftMade)).
  split; [exact reach_exMade|]. split; [exact reach_exLeftMade|]. split; [exists "mutecrypt: delete"%string; vm_compute; reflexivity|].
  split; [vm_compute; reflexivity|]. split; [discriminate|]. split; [vm_compute; reflexivity|]. split; [discriminate|].
  split; [vm_compute; reflexivity|]. split; vm_compute; reflexivity.
Qed.

(* ------------------------------------------------------------------ *)
(* C162: tokens *)
Definition hasTok (h : bytes) (w : world) : Prop := In h (map kHash (nTok w)) \/ In h (nSpent w).
Definition keepsTok (w w' : world) : Prop := (forall h, hasTok h w -> hasTok h w') /\ incl (nSpent w) (nSpent w').
Definition noDeath (o : nop) : Prop :=
  match o with NNew e _ _ _ _ => neReg e <> Died /\ neReg e <> DiedAfter /\ neInit e <> Died /\ neInit e <> DiedAfter /\ neDel e <> LDie | _ => True end.
Lemma kt_refl w : keepsTok w w. Proof. split; [auto|apply incl_refl]. Qed.
Lemma kt_trans a b c : keepsTok a b -> keepsTok b c -> keepsTok a c.
Proof. intros [A B] [C D]. split; [auto|]. eapply incl_tran; eassumption. Qed.
Lemma kt_same w w' : nTok w' = nTok w -> incl (nSpent w) (nSpent w') -> keepsTok w w'.
Proof. intros E I. split; [|exact I]. intros h [H|H]; [left; now rewrite E|right; now apply I]. Qed.
Lemma kt_lock b h w : keepsTok w (setTok (map (setLocked b h) (nTok w)) w).
Proof. split; [|apply incl_refl]. intros x [H|H]; [left; cbn [setTok nTok]; now rewrite hashes_locked|now right]. Qed.
Lemma kt_del h w : In h (nSpent w) -> keepsTok w (setTok (filter (fun t => negb (beq (kHash t) h)) (nTok w)) w).
Proof.
  intros S. split; [|apply incl_refl]. intros x [H|H]; [|now right]. cbn [setTok]. unfold hasTok. cbn [nTok nSpent].
  destruct (beq x h) eqn:E; [apply beq_spec in E; subst; now right|]. left. apply in_map_iff in H as [t [<- I]]. apply in_map_iff. exists t. split; [reflexivity|].
  apply filter_In. split; [exact I|]. now rewrite E.
Qed.
Lemma serve_spent r h ok eff a b w w' : (forall x, In h (nSpent (eff x))) -> serve r h ok eff a b w = (Ok AReady, w') -> In h (nSpent w').
Proof. intros H E. apply serve_ready in E as [_ [_ [_ ->]]]. apply H. Qed.
Lemma register_ready o id h w w' : register o id h w = (Ok AReady, w') -> In h (nSpent w').
Proof.
  unfold register. intros H. apply mbind_ok in H as [r [w1 [E H]]]. injection E as <- <-. destruct (privUID id w) as [r|]; [|discriminate H].
  destruct (pReplied r); [discriminate H|]. apply mbind_ok in H as [a [w1 [E H]]]. destruct a; [|discriminate H|discriminate H].
  apply mbind_ok in H as [[] [w2 [E2 H]]]. injection E2 as <-. injection H as <-. cbn [setReply setPrivs nSpent].
  apply serve_spent in E; [exact E|]. intros x. now left.
Qed.
Lemma addKeyInit_ready o id h w w' : addKeyInit o id h w = (Ok AReady, w') -> In h (nSpent w').
Proof.
  unfold addKeyInit. intros H. apply mbind_ok in H as [r [w1 [E H]]]. injection E as <- <-. destruct (privUID id w) as [r|]; [|discriminate H].
  apply mbind_ok in H as [a [w1 [E H]]]. destruct a; [|discriminate H|discriminate H].
  apply mbind_ok in H as [[] [w2 [E2 H]]]. injection E2 as <-. injection H as <-. cbn [addKey nSpent].
  apply serve_spent in E; [exact E|]. intros x. now left.
Qed.
Lemma serve_eof r h ok eff a b w w' : serve r h ok eff a b w = (Ok AEOF, w') -> r = Died \/ r = DiedAfter.
Proof. unfold serve. destruct r; try (intros H; discriminate H); auto. destruct (_ && _); intros H; discriminate H. Qed.
Lemma register_eof o id h w w' : register o id h w = (Ok AEOF, w') -> o = Died \/ o = DiedAfter.
Proof.
  unfold register. intros H. apply mbind_ok in H as [r [w1 [E H]]]. injection E as <- <-. destruct (privUID id w) as [r|]; [|discriminate H].
  destruct (pReplied r); [discriminate H|]. apply mbind_ok in H as [a [w1 [E H]]]. destruct a; [|discriminate H|now apply serve_eof in E].
  apply mbind_ok in H as [[] [w2 [E2 H]]]. discriminate H.
Qed.
Lemma addKeyInit_eof o id h w w' : addKeyInit o id h w = (Ok AEOF, w') -> o = Died \/ o = DiedAfter.
Proof.
  unfold addKeyInit. intros H. apply mbind_ok in H as [r [w1 [E H]]]. injection E as <- <-. destruct (privUID id w) as [r|]; [|discriminate H].
  apply mbind_ok in H as [a [w1 [E H]]]. destruct a; [|discriminate H|now apply serve_eof in E].
  apply mbind_ok in H as [[] [w2 [E2 H]]]. discriminate H.
Qed.
Lemma kt_getTok u o w : keepsTok w (snd (getTok u o w)).
Proof. apply (s_getTok keepsTok); auto using kt_refl, kt_lock. exact kt_trans. Qed.
Lemma kt_register o id h w : keepsTok w (snd (register o id h w)).
Proof.
  apply (s_register keepsTok); [exact kt_refl|exact kt_trans| |].
  - intros. apply kt_same; [reflexivity|]. cbn [addReg nSpent]. apply incl_tl, incl_refl.
  - intros. apply kt_same; [reflexivity|apply incl_refl].
Qed.
Lemma kt_addKeyInit o id h w : keepsTok w (snd (addKeyInit o id h w)).
Proof.
  apply (s_addKeyInit keepsTok); [exact kt_refl|exact kt_trans| |].
  - intros. apply kt_same; [reflexivity|]. cbn [addInit nSpent]. apply incl_tl, incl_refl.
  - intros. apply kt_same; [reflexivity|apply incl_refl].
Qed.
Lemma kt_delete o id w : keepsTok w (snd (deleteUID o id w)).
Proof. apply (s_delete keepsTok); [exact kt_refl|]. intros. apply kt_same; [reflexivity|apply incl_refl]. Qed.
Lemma kt_bind {A B} (m : M A) (f : A -> M B) w : keepsTok w (snd (m w)) -> (forall a w', m w = (Ok a, w') -> keepsTok w' (snd (f a w'))) -> keepsTok w (snd (mbind m f w)).
Proof. intros P Q. unfold mbind. destruct (m w) as [[a|s|] w1] eqn:E; cbn [snd] in *; [|exact P|exact P]. eapply kt_trans; [exact P|now apply Q]. Qed.
Lemma kt_keyInit e id ce w : neInit e <> Died -> neInit e <> DiedAfter -> keepsTok w (snd (keyInitAndQuit e id ce true w)).
Proof.
  intros N1 N2. unfold keyInitAndQuit. apply kt_bind; [apply kt_getTok|]. intros [h|] w1 _; [|apply kt_refl].
  apply kt_bind; [apply kt_addKeyInit|]. intros a w2 E. destruct a.
  - apply kt_bind; [apply kt_del; eapply addKeyInit_ready; exact E|]. intros [] w3 _. cbn [live negb]. destruct (neQuit e); destruct ce; apply kt_refl.
  - apply kt_refl.
  - apply addKeyInit_eof in E as [E|E]; contradiction.
Qed.
Lemma kt_newUID e id w : neReg e <> Died -> neReg e <> DiedAfter -> neInit e <> Died -> neInit e <> DiedAfter -> neDel e <> LDie ->
  keepsTok w (snd (mutecryptNewUID e id w)).
Proof.
  intros N1 N2 N3 N4 N5. unfold mutecryptNewUID. destruct (negb (neStart e)); [apply kt_refl|].
  apply kt_bind; [unfold generate; destruct (neGen e); apply kt_same; try reflexivity; apply incl_refl|]. intros [| |] w1 _; [|apply kt_refl|apply kt_refl].
  destruct (negb (neCaps e)); [apply kt_refl|]. apply kt_bind; [apply kt_getTok|]. intros [h|] w2 _; [|apply kt_refl].
  apply kt_bind; [apply kt_register|]. intros a w3 E. destruct a as [|s|].
  - apply kt_bind; [apply kt_del; eapply register_ready; exact E|]. intros [] w4 _. cbn [live]. now apply kt_keyInit.
  - apply kt_bind; [apply kt_lock|]. intros [] w4 _. apply kt_bind; [apply kt_delete|]. intros d w5 ED. destruct d; [now apply kt_keyInit|apply kt_refl|].
    exfalso. revert ED. unfold deleteUID. destruct (neDel e); [|discriminate|now elim N5]. intros H. apply mbind_ok in H as [r [w6 [_ H]]]. destruct r; [|discriminate H].
    apply mbind_ok in H as [[] [w7 [_ H]]]. discriminate H.
  - apply register_eof in E as [E|E]; contradiction.
Qed.
Lemma kt_onDB f w : keepsTok w (snd (onDB f w)).
Proof. unfold onDB. destruct (f (nDB w)); apply kt_same; try reflexivity; apply incl_refl. Qed.
Lemma kt_step U accd o w : noDeath o -> keepsTok w (nstep U accd w o).
Proof.
  intros ND. unfold nstep. destruct o as [e u f a b|u f|u|e u|h u|]; cbn [nexec noDeath] in *.
  - destruct ND as [N1 [N2 [N3 [N4 N5]]]]. unfold uidNew. apply kt_bind; [apply kt_refl|]. intros [id d] w1 _. apply kt_bind; [apply kt_refl|]. intros [] w2 _.
    apply kt_bind; [apply kt_refl|]. intros [old of] w3 _. destruct (negb _); [apply kt_refl|]. apply kt_bind; [apply kt_refl|]. intros [|] w4 _; [apply kt_refl|].
    apply kt_bind; [apply kt_getTok|]. intros [h|] w5 _; [|apply kt_refl]. apply kt_bind.
    { apply (s_pay keepsTok); [exact kt_refl|]. intros k x w0 _. apply kt_same; [reflexivity|]. cbn [addAcct nSpent]. apply incl_tl, incl_refl. }
    intros [|s|] w6 E; [| |apply kt_refl].
    + apply kt_bind; [apply kt_del; unfold payAccount in E; eapply serve_spent; [|exact E]; intros x; now left|]. intros [] w7 _.
      apply kt_bind; [apply kt_refl|]. intros [] w8 _. apply kt_bind; [now apply kt_newUID|]. intros [] w9 _. apply kt_bind; [apply kt_onDB|]. intros [] w10 _.
      apply kt_bind; [apply kt_onDB|]. intros [] w11 _. apply kt_bind; [apply kt_refl|]. intros ac w12 _. destruct (isNil ac); [apply kt_onDB|apply kt_refl].
    + apply kt_bind; [apply kt_lock|]. intros [] w7 _. apply kt_refl.
  - unfold uidEdit. apply kt_bind; [apply kt_refl|]. intros id w1 _. apply kt_bind; [apply kt_refl|]. intros [old of] w2 _. destruct (isNil old); [apply kt_refl|apply kt_onDB].
  - unfold uidSwitch. apply kt_bind; [apply kt_refl|]. intros id w1 _. apply kt_bind; [apply kt_refl|]. intros [old of] w2 _. destruct (isNil old); [apply kt_refl|apply kt_onDB].
  - unfold uidDelete. apply kt_bind; [apply kt_refl|]. intros id w1 _. apply kt_bind; [apply kt_refl|]. intros [old of] w2 _. destruct (isNil old); [apply kt_refl|].
    apply kt_bind; [apply kt_refl|]. intros ks w3 _. apply kt_bind; [apply kt_onDB|]. intros [] w4 _. apply kt_bind; [apply kt_delete|]. intros [| |] w5 _; [|apply kt_refl|apply kt_refl].
    apply (s_delAccts keepsTok); [exact kt_refl|exact kt_trans|]. intros. apply kt_same; [reflexivity|apply incl_refl].
  - cbn [mmod snd]. destruct (knownHash h w); [apply kt_refl|]. split; [|apply incl_refl]. intros x [H|H]; [left; cbn [setTok nTok]; rewrite map_app; apply in_app_iff; now left|now right].
  - cbn [mmod snd freeLocks]. split; [|apply incl_refl]. intros x [H|H]; [left; unfold freeLocks; cbn [setTok nTok]; now rewrite map_map|now right].
Qed.
Theorem C162_partial : forall U accd ops w h, Forall noDeath ops -> In h (map kHash (nTok w)) ->
  In h (map kHash (nTok (nrun U accd ops w))) \/ In h (nSpent (nrun U accd ops w)).
Proof.
  intros U accd ops w h F I. assert (H : keepsTok w (nrun U accd ops w)).
  { clear I. revert w. induction ops as [|o ops IH]; intros w; [apply kt_refl|]. inversion_clear F. cbn [nrun fold_left]. apply (kt_trans _ (nstep U accd w o)); [apply kt_step; assumption|apply IH; assumption]. }
  destruct H as [H _]. apply (H h). now left.
Qed.
Example C162_partial_ex : Forall noDeath [NNew (gEnv Served Refused Served LOk) exUid [] 1 2; NReopen; NNew (gEnv Served Served Served LOk) exUid [] 1 2] /\
  In (str "m1") (map kHash (nTok exStart)) /\ In (str "m1") (nSpent (nrun goUnicode exAccd [NNew (gEnv Served Refused Served LOk) exUid [] 1 2; NReopen; NNew (gEnv Served Served Served LOk) exUid [] 1 2] exStart)).
Proof. split; [repeat constructor; discriminate|]. split; vm_compute; auto. Qed.
(* if mutecrypt dies before it has used them, both tokens are removed from the wallet unused *)
Theorem C162_refuted : exists e w w', reachable goUnicode exAccd w /\ (exists s, uNew e w = (Err s, w')) /\
  (forall h, In h [str "u1"; str "m1"] -> In h (map kHash (nTok w)) /\ ~ In h (map kHash (nTok w')) /\ ~ In h (nSpent w')).
Proof.
  exists (gEnv Served Died Served LOk), exStart, (snd (uNew (gEnv Served Died Served LOk) exStart)). split; [exact reach_exStart|].
  split; [eexists; vm_compute; reflexivity|]. intros h [<-|[<-|[]]]; (split; [vm_compute; auto 8|split; vm_compute; intuition discriminate]).
Qed.
(* a token the account server has accepted without its answer arriving goes back to the wallet, where it is always chosen first *)
Definition blocked accd (w : world) : Prop := exists l1 h l2, nTok w = l1 ++ mkTok h accd false :: l2 /\ Forall (fun t => kUsage t <> accd) l1 /\ In h (nSpent w).
Lemma blocked_new U accd e u f a b w r w' : blocked accd w -> uidNew U accd e u f a b w = (r, w') -> r <> Ok tt /\ blocked accd w'.
Proof.
  intros B. assert (D : forall q, q <> Ok tt -> (q, w) = (r, w') -> r <> Ok tt /\ blocked accd w') by (intros q Q E; injection E as <- <-; auto).
  assert (B' := B). destruct B as [l1 [h [l2 [T [F S]]]]]. unfold uidNew. unfold mbind at 1, mlift at 1.
  destruct (mapPlus U u) as [[id d]|s|]; [|apply D; discriminate|apply D; discriminate].
  unfold mbind at 1, mneed, mlift at 1. destruct (neSync e); cbn [need]; [|apply D; discriminate].
  unfold mbind at 1, mlift at 1. destruct (getNym U id (nDB w)) as [[old of]|s|]; [|apply D; discriminate|apply D; discriminate].
  destruct (negb (isNil old)); [apply D; discriminate|]. unfold mbind at 1, mget_ at 1. destruct (neSearch e && isReg id w); [apply D; discriminate|].
  unfold mbind at 1. destruct (neTok1 e); [|apply D; discriminate|apply D; discriminate].
  assert (FT : find (usableFor accd) (nTok w) = Some (mkTok h accd false)).
  { rewrite T. rewrite find_app_none; [cbn [find]; unfold usableFor; cbn [kLocked kUsage negb andb]; now rewrite beq_refl|].
    clear -F. induction l1 as [|t l IH]; [reflexivity|]. inversion_clear F as [|? ? N F']. cbn [find]. unfold usableFor at 1. rewrite (proj2 (beq_neq _ _) N), andb_false_r. now apply IH. }
  rewrite (getTok_go _ _ _ FT). cbn [kHash]. unfold mbind at 1.
  set (w1 := setTok (map (setLocked true h) (nTok w)) w).
  assert (SP : spendable h w1 = false). { apply not_true_iff_false. intros Q. apply spendable_In in Q. apply Q. exact S. }
  assert (PA : exists s, payAccount (nePay e) (nePriv e) h w1 = (Ok (ALine s), w1)).
  { unfold payAccount, serve. rewrite SP. cbn [andb]. destruct (nePay e); eauto. }
  destruct PA as [s ->]. unfold mbind, lockTok, mmod, mfail. intros E. injection E as <- <-. split; [discriminate|].
  assert (L : forall b l, Forall (fun t => kUsage t <> accd) l -> Forall (fun t => kUsage t <> accd) (map (setLocked b h) l)).
  { intros b0 l FL. apply Forall_map. eapply Forall_impl; [|exact FL]. intros t N. unfold setLocked. now destruct (beq _ _). }
  exists (map (setLocked false h) (map (setLocked true h) l1)), h, (map (setLocked false h) (map (setLocked true h) l2)). split.
  - unfold w1. cbn [setTok nTok]. rewrite T, !map_app. cbn [map]. f_equal. f_equal. unfold setLocked. cbn [kHash kUsage]. rewrite beq_refl. cbn [kHash kUsage]. now rewrite beq_refl.
  - split; [auto|exact S].
Qed.
Definition sameTok (w w' : world) : Prop := nTok w' = nTok w /\ nSpent w' = nSpent w.
Lemma st_refl w : sameTok w w. Proof. split; reflexivity. Qed.
Lemma st_trans a b c : sameTok a b -> sameTok b c -> sameTok a c. Proof. intros [A B] [C D]. split; congruence. Qed.
Lemma st_bind {A B} (m : M A) (f : A -> M B) : pres sameTok m -> (forall a, pres sameTok (f a)) -> pres sameTok (mbind m f).
Proof. apply pres_bind. exact st_trans. Qed.
Lemma st_onDB f : pres sameTok (onDB f).
Proof. intros w. unfold onDB. destruct (f (nDB w)); split; reflexivity. Qed.
Lemma st_delete U e u : pres sameTok (uidDelete U e u).
Proof.
  unfold uidDelete. apply st_bind; [intros w; apply st_refl|]. intros id. apply st_bind; [intros w; apply st_refl|]. intros [old of].
  destruct (isNil old); [intros w; apply st_refl|]. apply st_bind; [intros w; apply st_refl|]. intros ks. apply st_bind; [apply st_onDB|]. intros [].
  apply st_bind. { apply s_delete; [exact st_refl|]. intros. split; reflexivity. }
  intros [| |]; [|intros w; apply st_refl|intros w; apply st_refl]. apply s_delAccts; [exact st_refl|exact st_trans|]. intros. split; reflexivity.
Qed.
Lemma st_edit U u f : pres sameTok (uidEdit U u f).
Proof.
  unfold uidEdit. apply st_bind; [intros w; apply st_refl|]. intros id. apply st_bind; [intros w; apply st_refl|]. intros [old of].
  destruct (isNil old); [intros w; apply st_refl|apply st_onDB].
Qed.
Lemma st_switch U u : pres sameTok (uidSwitch U u).
Proof.
  unfold uidSwitch. apply st_bind; [intros w; apply st_refl|]. intros id. apply st_bind; [intros w; apply st_refl|]. intros [old of].
  destruct (isNil old); [intros w; apply st_refl|apply st_onDB].
Qed.
Theorem C162_stuck : forall U accd ops w e unm full minD maxD, blocked accd w -> fst (uidNew U accd e unm full minD maxD (nrun U accd ops w)) <> Ok tt.
Proof.
  intros U accd ops w e unm full minD maxD B.
  assert (G : blocked accd (nrun U accd ops w)).
  { revert w B. induction ops as [|o ops IH]; intros w B; [exact B|]. cbn [nrun fold_left]. apply IH. unfold nstep.
    assert (SAME : forall w', sameTok w w' -> blocked accd w') by (intros w' [E1 E2]; unfold blocked; now rewrite E1, E2).
    destruct o as [e' u f a b|u f|u|e' u|h u|]; cbn [nexec].
    - destruct (uidNew U accd e' u f a b w) as [r w'] eqn:E. apply (blocked_new _ _ _ _ _ _ _ _ _ _ B) in E. apply E.
    - apply SAME, st_edit.
    - apply SAME, st_switch.
    - apply SAME, st_delete.
    - cbn [mmod snd]. destruct (knownHash h w); [exact B|]. destruct B as [l1 [k [l2 [T [F S]]]]]. exists l1, k, (l2 ++ [mkTok h u false]).
      cbn [setTok nTok nSpent]. split; [now rewrite T, <- app_assoc|auto].
    - cbn [mmod snd freeLocks]. destruct B as [l1 [k [l2 [T [F S]]]]]. exists (map (fun t => mkTok (kHash t) (kUsage t) false) l1), k, (map (fun t => mkTok (kHash t) (kUsage t) false) l2).
      unfold freeLocks. cbn [setTok nTok nSpent]. split; [now rewrite T, map_app|]. split; [apply Forall_map; eapply Forall_impl; [|exact F]; auto|exact S]. }
  destruct (uidNew U accd e unm full minD maxD (nrun U accd ops w)) as [r w'] eqn:E. apply (blocked_new _ _ _ _ _ _ _ _ _ _ G) in E. apply E.
Qed.
(* the state arises when the answer to the payment of an account is lost; more tokens do not help *)
Definition exBlocked : world := Eval vm_compute in snd (uNew (gEnv Lost Served Served LOk) exStart).
Example C162_stuck_ex : reachable goUnicode exAccd exBlocked /\ blocked exAccd exBlocked /\
  fst (uNew (gEnv Served Served Served LOk) (nrun goUnicode exAccd [NReopen; NBuy (str "a9") exAccd] exBlocked)) = Err "account refused"%string.
Proof.
  split; [apply (reach_step _ _ (NNew (gEnv Lost Served Served LOk) exUid (str "Alice") 1 2) exStart); [exact reach_exStart|vm_compute; reflexivity]|].
  split; [|vm_compute; reflexivity]. unfold blocked. eexists [], _, _. split; [reflexivity|]. split; [constructor|]. vm_compute. auto.
Qed.

Print Assumptions C157_new.
Print Assumptions C158_possible_partial.
Print Assumptions C158_taken.
Print Assumptions C158_refuted.
Print Assumptions C159_never.
Print Assumptions C159_refuted.
Print Assumptions C160_step.
Print Assumptions C160_partial.
Print Assumptions C160_refuted.
Print Assumptions C161_removed.
Print Assumptions C161_refuted.
Print Assumptions C162_partial.
Print Assumptions C162_refuted.
Print Assumptions C162_stuck.
