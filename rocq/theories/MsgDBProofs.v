(* Invariants of the message database model. *)
From Verif Require Import Base Base64Model Base64Proofs IdentityModel IdentityProofs Maps SqlModel SqlProofs MsgDBModel.
From Coq Require Import Sorting.Sorted.
Local Open Scope N_scope.

Lemma dbind_ok {A B} (m : res A) (f : A -> res B) b : rbind m f = Ok b -> exists a, m = Ok a /\ f a = Ok b.
Proof. destruct m; cbn [rbind]; try discriminate. eauto. Qed.
Lemma need_ok c e x : need c e = Ok x -> c = true.
Proof. unfold need. destruct c; [reflexivity|discriminate]. Qed.
Lemma fromOpt_ok {A} (o : option A) e a : fromOpt o e = Ok a -> o = Some a.
Proof. destruct o; cbn; [|discriminate]. intros H; injection H as ->; reflexivity. Qed.
Lemma Ok_eq {A} (a b : A) : Ok a = Ok b -> a = b.
Proof. intros H; injection H as ->; reflexivity. Qed.

(* Inversion of a successful operation. *)
Ltac inv1 H :=
  let a := fresh "a" in let E := fresh "E" in
  apply dbind_ok in H as [a [E H]]; cbv beta in H;
  try match type of E with
      | need _ _ = Ok _ => apply need_ok in E
      | fromOpt _ _ = Ok _ => apply fromOpt_ok in E
      end.
Ltac invs H := repeat inv1 H.

Lemma isNil_false b : negb (isNil b) = true -> b <> [].
Proof. destruct b; [discriminate|intros _; discriminate]. Qed.
Lemma isNil_spec b : isNil b = true <-> b = [].
Proof. destruct b; split; [reflexivity|reflexivity|discriminate|discriminate]. Qed.

(* ---------------- generic facts about tables ---------------- *)
Lemma Forall_tins {A} (P : N * A -> Prop) a t : Forall P t -> P (nextId t, a) -> Forall P (tins a t).
Proof. intros F H. apply Forall_app; split; [exact F|]. constructor; [exact H|constructor]. Qed.
Lemma Forall_tdel {A} (P : N * A -> Prop) p t : Forall P t -> Forall P (tdel p t).
Proof. rewrite !Forall_forall. intros F r I. apply In_tdel in I. apply F; tauto. Qed.
Lemma Forall_tupd {A} (P : N * A -> Prop) p f t : Forall P t ->
  (forall i a, In (i, a) t -> p i a = true -> P (i, a) -> P (i, f a)) -> Forall P (tupd p f t).
Proof.
  rewrite !Forall_forall. intros F H r I. apply In_tupd in I as [[i a] [I ->]]. cbn [fst snd].
  destruct (p i a) eqn:E; [|apply F; exact I]. apply H; [exact I|exact E|apply F; exact I].
Qed.
Lemma map_tupd {A B} (g : N * A -> B) p f t :
  (forall i a, p i a = true -> g (i, f a) = g (i, a)) -> map g (tupd p f t) = map g t.
Proof.
  intros H. unfold tupd. rewrite map_map. apply map_ext. intros [i a]. cbn [fst snd].
  destruct (p i a) eqn:E; [apply H; exact E|reflexivity].
Qed.
Lemma NoDup_map_filter {A B} (g : A -> B) p l : NoDup (map g l) -> NoDup (map g (filter p l)).
Proof.
  induction l as [|x l IH]; cbn [map filter]; [intros; constructor|].
  intros N; inversion N as [|? ? NI N']; subst. destruct (p x); cbn [map]; [|apply IH; assumption].
  constructor; [|apply IH; assumption]. intros H. apply NI. apply in_map_iff in H as [y [<- Y]].
  apply filter_In in Y. apply in_map. tauto.
Qed.
Lemma NoDup_app_last {A} (l : list A) x : NoDup l -> ~ In x l -> NoDup (l ++ [x]).
Proof.
  intros N H. induction N as [|a l NI N IH]; cbn [app]; [constructor; [intros []|constructor]|].
  constructor.
  - intros Q. apply in_app_or in Q as [Q|[<-|[]]]; [contradiction|]. apply H; now left.
  - apply IH. intros Q; apply H; now right.
Qed.
Lemma NoDup_tins {A B} (g : N * A -> B) a t :
  NoDup (map g t) -> (forall i b, In (i, b) t -> g (i, b) <> g (nextId t, a)) -> NoDup (map g (tins a t)).
Proof.
  intros N H. unfold tins. rewrite map_app. cbn [map]. apply NoDup_app_last; [exact N|].
  intros Q. apply in_map_iff in Q as [[i b] [Q I]]. exact (H _ _ I Q).
Qed.
Lemma NoDup_key {A B} (g : N * A -> B) t r s : NoDup (map g t) -> In r t -> In s t -> g r = g s -> r = s.
Proof.
  induction t as [|x t IH]; [intros _ []|]. cbn [map]. intros N; inversion N as [|? ? NI N']; subst.
  intros [<-|R] [<-|S] E; [reflexivity| | |apply IH; assumption].
  - elim NI. rewrite E. now apply in_map.
  - elim NI. rewrite <- E. now apply in_map.
Qed.

(* ---------------- the invariant ---------------- *)
Definition nkeys (t : tbl nymRow) : list N := map fst t.
Definition ckeys (t : tbl contactRow) : list (N * N) := map (fun r => (fst r, cMy (snd r))) t.
Definition mkeys (t : tbl msgRow) : list (N * N) := map (fun r => (fst r, mSelf (snd r))) t.
Definition cref (ck : list (N * N)) (my c : N) : Prop := c = 0 \/ In (c, my) ck.

Section Inv.
  Variable U : Unicode.

  Definition nymRowOk (n : nymRow) : Prop :=
    mapped U (nMapped n) = true /\ imap U (nUnmapped n) = Ok (nMapped n) /\ nUnmapped n <> [].
  Definition nymsOk (t : tbl nymRow) : Prop :=
    idsOk t /\ Forall (fun r => nymRowOk (snd r)) t /\ NoDup (map (fun r => nMapped (snd r)) t).
  Definition contactsOk (nk : list N) (t : tbl contactRow) : Prop :=
    idsOk t /\ Forall (fun r => In (cMy (snd r)) nk /\ mapped U (cMapped (snd r)) = true /\
                                imap U (cUnmapped (snd r)) = Ok (cMapped (snd r)) /\ cUnmapped (snd r) <> []) t
    /\ NoDup (map (fun r => (cMy (snd r), cMapped (snd r))) t).
  Definition accsOk (nk : list N) (ck : list (N * N)) (t : tbl accRow) : Prop :=
    idsOk t /\ Forall (fun r => In (aMy (snd r)) nk /\ cref ck (aMy (snd r)) (aContact (snd r))) t
    /\ NoDup (map (fun r => (aMy (snd r), aContact (snd r))) t).
  Definition msgsOk (nk : list N) (ck : list (N * N)) (t : tbl msgRow) : Prop :=
    idsOk t /\ Forall (fun r => In (mSelf (snd r)) nk /\ In (mPeer (snd r), mSelf (snd r)) ck) t.
  Definition outOk (nk : list N) (mk : list (N * N)) (t : tbl oqRow) : Prop :=
    idsOk t /\ Forall (fun r => In (oSelf (snd r)) nk /\ exists s, In (oMsgID (snd r), s) mk) t.
  Definition inOk (nk : list N) (ck : list (N * N)) (t : tbl iqRow) : Prop :=
    idsOk t /\ Forall (fun r => In (iMy (snd r)) nk /\ cref ck (iMy (snd r)) (iContact (snd r))) t.
  Definition cacheOk (nk : list N) (ck : list (N * N)) (t : tbl idRow) : Prop :=
    idsOk t /\ Forall (fun r => In (dMy (snd r)) nk /\ cref ck (dMy (snd r)) (dContact (snd r)) /\ dMsgID (snd r) <> []) t.

  Record Inv (db : msgdb) : Prop := mkInv {
    iv_nyms : nymsOk (dbNyms db);
    iv_contacts : contactsOk (nkeys (dbNyms db)) (dbContacts db);
    iv_accs : accsOk (nkeys (dbNyms db)) (ckeys (dbContacts db)) (dbAccounts db);
    iv_msgs : msgsOk (nkeys (dbNyms db)) (ckeys (dbContacts db)) (dbMsgs db);
    iv_out : outOk (nkeys (dbNyms db)) (mkeys (dbMsgs db)) (dbOut db);
    iv_in : inOk (nkeys (dbNyms db)) (ckeys (dbContacts db)) (dbIn db);
    iv_ids : cacheOk (nkeys (dbNyms db)) (ckeys (dbContacts db)) (dbIds db) }.

  Lemma Inv_empty : Inv emptyDB.
  Proof.
    constructor; cbn [emptyDB dbNyms dbContacts dbAccounts dbMsgs dbOut dbIn dbIds];
      repeat split; try constructor.
  Qed.

  (* monotonicity in the referenced keys *)
  Lemma cref_mono ck ck' my c : incl ck ck' -> cref ck my c -> cref ck' my c.
  Proof. intros I [H|H]; [now left|right; apply I; exact H]. Qed.
  Lemma contactsOk_mono nk nk' t : incl nk nk' -> contactsOk nk t -> contactsOk nk' t.
  Proof.
    intros I [A [B C]]. split; [exact A|]. split; [|exact C]. eapply Forall_impl; [|exact B]. cbn.
    intros r [X Y]. split; [apply I; exact X|exact Y].
  Qed.
  Lemma accsOk_mono nk nk' ck ck' t : incl nk nk' -> incl ck ck' -> accsOk nk ck t -> accsOk nk' ck' t.
  Proof.
    intros I J [A [B C]]. split; [exact A|]. split; [|exact C]. eapply Forall_impl; [|exact B]. cbn.
    intros r [X Y]. split; [apply I; exact X|eapply cref_mono; eassumption].
  Qed.
  Lemma msgsOk_mono nk nk' ck ck' t : incl nk nk' -> incl ck ck' -> msgsOk nk ck t -> msgsOk nk' ck' t.
  Proof.
    intros I J [A B]. split; [exact A|]. eapply Forall_impl; [|exact B]. cbn.
    intros r [X Y]. split; [apply I; exact X|apply J; exact Y].
  Qed.
  Lemma outOk_mono nk nk' mk mk' t : incl nk nk' -> incl mk mk' -> outOk nk mk t -> outOk nk' mk' t.
  Proof.
    intros I J [A B]. split; [exact A|]. eapply Forall_impl; [|exact B]. cbn.
    intros r [X [s Y]]. split; [apply I; exact X|exists s; apply J; exact Y].
  Qed.
  Lemma inOk_mono nk nk' ck ck' t : incl nk nk' -> incl ck ck' -> inOk nk ck t -> inOk nk' ck' t.
  Proof.
    intros I J [A B]. split; [exact A|]. eapply Forall_impl; [|exact B]. cbn.
    intros r [X Y]. split; [apply I; exact X|eapply cref_mono; eassumption].
  Qed.
  Lemma cacheOk_mono nk nk' ck ck' t : incl nk nk' -> incl ck ck' -> cacheOk nk ck t -> cacheOk nk' ck' t.
  Proof.
    intros I J [A B]. split; [exact A|]. eapply Forall_impl; [|exact B]. cbn.
    intros r [X [Y Z]]. split; [apply I; exact X|]. split; [eapply cref_mono; eassumption|exact Z].
  Qed.
  Lemma incl_tins {A B} (g : N * A -> B) a t : incl (map g t) (map g (tins a t)).
  Proof. unfold tins. rewrite map_app. apply incl_appl, incl_refl. Qed.

  (* queries *)
  Lemma qNymUID_ok m db i : qNymUID m db = Ok i -> exists n, In (i, n) (dbNyms db) /\ nMapped n = m.
  Proof.
    unfold qNymUID. destruct (tmin _ _) as [[j n]|] eqn:E; [|discriminate]. intros H; injection H as <-.
    apply tmin_some in E as [I P]. cbn [fst snd] in P. apply beq_spec in P. eauto.
  Qed.
  Lemma qNymUID_key m db i : qNymUID m db = Ok i -> In i (nkeys (dbNyms db)).
  Proof. intros H. apply qNymUID_ok in H as [n [I _]]. unfold nkeys. change i with (fst (i, n)). now apply in_map. Qed.
  Lemma qNymUID_intro db i n : nymsOk (dbNyms db) -> In (i, n) (dbNyms db) -> qNymUID (nMapped n) db = Ok i.
  Proof.
    intros [O [_ ND]] I. unfold qNymUID. destruct (tmin _ _) as [[j n']|] eqn:E.
    - apply tmin_some in E as [J P]. cbn [fst snd] in P. apply beq_spec in P. f_equal.
      assert (Q : (j, n') = (i, n)) by (apply (NoDup_key _ _ _ _ ND J I); cbn [snd]; exact P).
      injection Q as -> _. reflexivity.
    - pose proof (tmin_none _ _ E _ I) as Q. cbn [snd] in Q. rewrite beq_refl in Q. discriminate.
  Qed.
  Lemma qNymUID_inj db a b i : qNymUID a db = Ok i -> qNymUID b db = Ok i -> nymsOk (dbNyms db) -> a = b.
  Proof.
    intros A B [O _]. apply qNymUID_ok in A as [n [I <-]]. apply qNymUID_ok in B as [m [J <-]].
    now rewrite (idsOk_unique _ _ _ _ O I J).
  Qed.
  Lemma qContactUID_ok my m db i : qContactUID my m db = Ok i ->
    exists c, In (i, c) (dbContacts db) /\ cMy c = my /\ cMapped c = m.
  Proof.
    unfold qContactUID. destruct (tmin _ _) as [[j n]|] eqn:E; [|discriminate]. intros H; injection H as <-.
    apply tmin_some in E as [I P]. cbn [fst snd] in P. unfold isContact in P.
    apply andb_prop in P as [P Q]. apply N.eqb_eq in P. apply beq_spec in Q. eauto.
  Qed.
  Lemma ckeys_In db i c : In (i, c) (dbContacts db) -> In (i, cMy c) (ckeys (dbContacts db)).
  Proof. intros I. unfold ckeys. apply in_map_iff. exists (i, c). auto. Qed.
  Lemma qContactUID_key my m db i : qContactUID my m db = Ok i -> In (i, my) (ckeys (dbContacts db)).
  Proof. intros H. apply qContactUID_ok in H as [c [I [<- _]]]. apply ckeys_In; exact I. Qed.
  Lemma pairIDs_ok m c db mID cID : pairIDs U m c db = Ok (mID, cID) ->
    qNymUID m db = Ok mID /\ cref (ckeys (dbContacts db)) mID cID /\ mapped U m = true /\
    (c = [] /\ cID = 0 \/ c <> [] /\ qContactUID mID c db = Ok cID).
  Proof.
    unfold pairIDs. intros H. invs H. injection H as -> ->. split; [exact E1|].
    destruct (isNil c) eqn:Q.
    - apply Ok_eq in E2 as <-. split; [now left|]. split; [exact E|]. left. apply isNil_spec in Q. auto.
    - split; [right; eapply qContactUID_key; exact E2|]. split; [exact E|]. right.
      split; [intros ->; discriminate|exact E2].
  Qed.

  Ltac unpack V := destruct V as [VN VC VA VM VO VI VD];
    cbn [dbNyms dbContacts dbAccounts dbMsgs dbOut dbIn dbIds] in *.
  Ltac fields := cbn [withKV withNyms withContacts withAccounts withMsgs withOut withIn withIds cascadeMsgs
    dbKV dbNyms dbContacts dbAccounts dbMsgs dbOut dbIn dbIds].

  Lemma Inv_addValue k v db db' : Inv db -> addValue k v db = Ok db' -> Inv db'.
  Proof. unfold addValue. intros V H. invs H. apply Ok_eq in H as <-. destruct V; constructor; assumption. Qed.

  (* an update of the nym table that keeps ids and mapped ids *)
  Lemma Inv_withNyms_upd p f db : Inv db ->
    (forall i n, In (i, n) (dbNyms db) -> p i n = true -> nymRowOk n -> nymRowOk (f n)) ->
    (forall n, nMapped (f n) = nMapped n) ->
    Inv (withNyms (tupd p f (dbNyms db)) db).
  Proof.
    intros V H M. unpack V. constructor; fields; unfold nkeys; rewrite ?tupd_ids; try assumption.
    destruct VN as [A [B C]]. split; [apply idsOk_tupd; exact A|]. split.
    - apply Forall_tupd; [exact B|]. cbn [snd]. intros i a I P Q. apply (H i a I P Q).
    - rewrite map_tupd; [exact C|]. cbn [snd]. intros; apply M.
  Qed.
  Lemma Inv_addNym m u f db db' : Inv db -> addNym U m u f db = Ok db' -> Inv db'.
  Proof.
    unfold addNym. intros V H. inv1 H. inv1 H. inv1 H. inv1 H. inv1 H.
    apply beq_spec in E3 as ->.
    destruct (thas _ (dbNyms db)) eqn:TH.
    - inv1 H. apply Ok_eq in H as <-. apply Inv_withNyms_upd; [exact V| |reflexivity].
      intros i n I P [X [Y Z]]. cbn [nMapped nUnmapped]. apply beq_spec in P. split; [exact X|].
      split; [cbn; rewrite P; exact E2|cbn; apply isNil_false; assumption].
    - inv1 H. apply Ok_eq in H as <-. unpack V. destruct VN as [A [B C]].
      constructor; fields; unfold nkeys.
      + split; [apply idsOk_tins; exact A|]. split.
        * apply Forall_tins; [exact B|]. cbn [snd nMapped nUnmapped]. split; [exact E1|]. cbn.
          split; [exact E2|apply isNil_false; assumption].
        * apply NoDup_tins; [exact C|]. cbn [snd nMapped]. intros i b I Q.
          pose proof (thas_false _ _ TH _ I) as R. cbn [snd] in R. rewrite Q, beq_refl in R. discriminate.
      + eapply contactsOk_mono; [apply incl_tins|exact VC].
      + eapply accsOk_mono; [apply incl_tins|apply incl_refl|exact VA].
      + eapply msgsOk_mono; [apply incl_tins|apply incl_refl|exact VM].
      + eapply outOk_mono; [apply incl_tins|apply incl_refl|exact VO].
      + eapply inOk_mono; [apply incl_tins|apply incl_refl|exact VI].
      + eapply cacheOk_mono; [apply incl_tins|apply incl_refl|exact VD].
  Qed.
  Lemma Inv_setUpkeepAll m t db db' : Inv db -> setUpkeepAll U m t db = Ok db' -> Inv db'.
  Proof.
    unfold setUpkeepAll. intros V H. invs H. apply Ok_eq in H as <-.
    apply Inv_withNyms_upd; [exact V| |reflexivity]. intros i n I P Q. exact Q.
  Qed.
  Lemma Inv_setUpkeepAccounts m t db db' : Inv db -> setUpkeepAccounts U m t db = Ok db' -> Inv db'.
  Proof.
    unfold setUpkeepAccounts. intros V H. invs H. apply Ok_eq in H as <-.
    apply Inv_withNyms_upd; [exact V| |reflexivity]. intros i n I P Q. exact Q.
  Qed.

  (* deletion of messages with their queue entries *)
  Lemma Inv_cascadeMsgs p db : Inv db -> Inv (cascadeMsgs p db).
  Proof.
    intros V. unpack V. constructor; fields; try assumption.
    - destruct VM as [A B]. split; [apply idsOk_tdel; exact A|apply Forall_tdel; exact B].
    - destruct VO as [A B]. split; [apply idsOk_tdel; exact A|].
      apply Forall_forall. intros [i o] I. apply In_tdel in I as [I P]. cbn [fst snd] in *.
      rewrite Forall_forall in B. destruct (B _ I) as [X [s Y]]. cbn [snd] in *. split; [exact X|].
      exists s. unfold mkeys in *. apply in_map_iff in Y as [[j m] [Y J]]. cbn [fst snd] in Y. injection Y as -> <-.
      apply in_map_iff. exists (oMsgID o, m). split; [reflexivity|]. apply In_tdel. split; [exact J|]. cbn [fst snd].
      pose proof (thas_false _ _ P _ J) as Q. cbn [fst snd] in Q. rewrite N.eqb_refl, andb_true_r in Q. exact Q.
  Qed.
  Lemma Inv_cascadeNym uid db : Inv db -> Inv (cascadeNym uid db).
  Proof.
    intros V. unfold cascadeNym. apply (Inv_cascadeMsgs (fun _ m => mSelf m =? uid)) in V.
    assert (OM : forall i m, In (i, m) (dbMsgs (cascadeMsgs (fun _ m => mSelf m =? uid) db)) -> mSelf m <> uid).
    { intros i m I. cbn [cascadeMsgs withOut withMsgs dbMsgs] in I. apply In_tdel in I as [_ P]. cbn [snd] in P.
      apply N.eqb_neq. exact P. }
    revert V OM. generalize (cascadeMsgs (fun _ m => mSelf m =? uid) db). clear db. intros db V OM.
    unpack V.
    assert (NK : forall x, In x (nkeys (dbNyms db)) -> x <> uid -> In x (nkeys (tdel (fun i _ => i =? uid) (dbNyms db)))).
    { intros x I Q. unfold nkeys in *. apply in_map_iff in I as [[j n] [<- J]]. cbn [fst] in *.
      apply in_map_iff. exists (j, n). split; [reflexivity|]. apply In_tdel. split; [exact J|]. cbn [fst].
      apply N.eqb_neq; exact Q. }
    assert (CK : forall c my, In (c, my) (ckeys (dbContacts db)) -> my <> uid ->
                   In (c, my) (ckeys (tdel (fun _ c => cMy c =? uid) (dbContacts db)))).
    { intros c my I Q. unfold ckeys in *. apply in_map_iff in I as [[j r] [E J]]. cbn [fst snd] in *. injection E as -> <-.
      apply in_map_iff. exists (c, r). split; [reflexivity|]. apply In_tdel. split; [exact J|]. cbn [snd].
      apply N.eqb_neq; exact Q. }
    assert (CR : forall my c, cref (ckeys (dbContacts db)) my c -> my <> uid ->
                   cref (ckeys (tdel (fun _ c => cMy c =? uid) (dbContacts db))) my c).
    { intros my c [I|I] Q; [now left|right; apply CK; assumption]. }
    constructor; fields.
    - destruct VN as [A [B C]]. split; [apply idsOk_tdel; exact A|]. split; [apply Forall_tdel; exact B|].
      apply NoDup_map_filter; exact C.
    - destruct VC as [A [B C]]. split; [apply idsOk_tdel; exact A|]. split; [|apply NoDup_map_filter; exact C].
      apply Forall_forall. intros [i r] I. apply In_tdel in I as [I P]. cbn [fst snd] in *.
      rewrite Forall_forall in B. destruct (B _ I) as [X Y]. cbn [snd] in *. split; [|exact Y].
      apply NK; [exact X|apply N.eqb_neq; exact P].
    - destruct VA as [A [B C]]. split; [apply idsOk_tdel; exact A|]. split; [|apply NoDup_map_filter; exact C].
      apply Forall_forall. intros [i r] I. apply In_tdel in I as [I P]. cbn [fst snd] in *.
      apply N.eqb_neq in P.
      rewrite Forall_forall in B. destruct (B _ I) as [X Y]. cbn [snd] in *. split; [apply NK; assumption|apply CR; assumption].
    - destruct VM as [A B]. split; [exact A|].
      apply Forall_forall. intros [i r] I. cbn [fst snd].
      rewrite Forall_forall in B. destruct (B _ I) as [X Y]. cbn [snd] in *. specialize (OM _ _ I).
      split; [apply NK; assumption|apply CK; assumption].
    - destruct VO as [A B]. split; [apply idsOk_tdel; exact A|].
      apply Forall_forall. intros [i r] I. apply In_tdel in I as [I P]. cbn [fst snd] in *. apply N.eqb_neq in P.
      rewrite Forall_forall in B. destruct (B _ I) as [X Y]. cbn [snd] in *. split; [apply NK; assumption|exact Y].
    - destruct VI as [A B]. split; [apply idsOk_tdel; exact A|].
      apply Forall_forall. intros [i r] I. apply In_tdel in I as [I P]. cbn [fst snd] in *. apply N.eqb_neq in P.
      rewrite Forall_forall in B. destruct (B _ I) as [X Y]. cbn [snd] in *. split; [apply NK; assumption|apply CR; assumption].
    - destruct VD as [A B]. split; [apply idsOk_tdel; exact A|].
      apply Forall_forall. intros [i r] I. apply In_tdel in I as [I P]. cbn [fst snd] in *. apply N.eqb_neq in P.
      rewrite Forall_forall in B. destruct (B _ I) as [X [Y Z]]. cbn [snd] in *.
      split; [apply NK; assumption|]. split; [apply CR; assumption|exact Z].
  Qed.
  Lemma Inv_delNym m db db' : Inv db -> delNym U m db = Ok db' -> Inv db'.
  Proof.
    unfold delNym. intros V H. inv1 H. inv1 H. destruct a0 as [u f]. inv1 H. inv1 H. inv1 H.
    apply Ok_eq in H as <-. apply Inv_cascadeNym; exact V.
  Qed.
  Lemma peersOk_cascade uid db : Inv db -> peersOk (cascadeNym uid db) = true.
  Proof.
    intros V. apply (Inv_cascadeNym uid) in V. unfold peersOk. apply forallb_forall. intros [i m] I. cbn [snd].
    destruct (iv_msgs _ V) as [_ B]. rewrite Forall_forall in B. destruct (B _ I) as [_ Y]. cbn [snd] in Y.
    apply thas_true. unfold ckeys in Y. apply in_map_iff in Y as [[j c] [E J]]. cbn [fst snd] in E. injection E as -> _.
    exists (mPeer m, c). split; [exact J|]. cbn [fst]. apply N.eqb_refl.
  Qed.

  Lemma Inv_withContacts_upd my m f db : Inv db ->
    (forall c, cMy (f c) = cMy c /\ cMapped (f c) = cMapped c) ->
    (forall c, cMapped c = m -> imap U (cUnmapped c) = Ok (cMapped c) -> cUnmapped c <> [] ->
               imap U (cUnmapped (f c)) = Ok (cMapped c) /\ cUnmapped (f c) <> []) ->
    Inv (withContacts (tupd (fun _ c => isContact my m c) f (dbContacts db)) db).
  Proof.
    intros V K H. unpack V.
    assert (CK : ckeys (tupd (fun _ c => isContact my m c) f (dbContacts db)) = ckeys (dbContacts db)).
    { unfold ckeys. apply map_tupd. cbn [fst snd]. intros i a _. destruct (K a) as [-> _]. reflexivity. }
    constructor; fields; rewrite ?CK; try assumption.
    destruct VC as [A [B C]]. split; [apply idsOk_tupd; exact A|]. split.
    - apply Forall_tupd; [exact B|]. cbn [snd]. intros i a _ P [X [Y [Z W]]].
      unfold isContact in P. apply andb_prop in P as [_ P]. apply beq_spec in P.
      destruct (K a) as [-> ->]. split; [exact X|]. split; [exact Y|]. apply H; assumption.
    - rewrite map_tupd; [exact C|]. cbn [snd]. intros i a _. destruct (K a) as [-> ->]. reflexivity.
  Qed.
  Lemma Inv_addContact my m u f ct db db' : Inv db -> addContact U my m u f ct db = Ok db' -> Inv db'.
  Proof.
    unfold addContact. intros V H. inv1 H. inv1 H. inv1 H. inv1 H. inv1 H. inv1 H.
    apply beq_spec in E3 as ->. rename a4 into uid.
    destruct (thas _ (dbContacts db)) eqn:TH; apply Ok_eq in H as <-.
    - apply Inv_withContacts_upd; [exact V|split; reflexivity|]. intros c Q _ _. cbn [cUnmapped]. rewrite Q.
      split; [exact E2|apply isNil_false; assumption].
    - unpack V. constructor; fields; try assumption.
      + destruct VC as [A [B C]]. split; [apply idsOk_tins; exact A|]. split.
        * apply Forall_tins; [exact B|]. cbn [snd cMy cMapped cUnmapped]. split; [eapply qNymUID_key; exact E4|].
          split; [exact E0|]. split; [exact E2|apply isNil_false; assumption].
        * apply NoDup_tins; [exact C|]. cbn [snd cMy cMapped]. intros i b I Q.
          pose proof (thas_false _ _ TH _ I) as R. cbn [snd] in R. unfold isContact in R. injection Q as Q1 Q2.
          rewrite Q1, Q2, N.eqb_refl, beq_refl in R. discriminate.
      + eapply accsOk_mono; [apply incl_refl|apply incl_tins|exact VA].
      + eapply msgsOk_mono; [apply incl_refl|apply incl_tins|exact VM].
      + eapply inOk_mono; [apply incl_refl|apply incl_tins|exact VI].
      + eapply cacheOk_mono; [apply incl_refl|apply incl_tins|exact VD].
  Qed.
  Lemma Inv_removeContact my m db db' : Inv db -> removeContact U my m db = Ok db' -> Inv db'.
  Proof.
    unfold removeContact. intros V H. invs H. apply Ok_eq in H as <-.
    apply Inv_withContacts_upd; [exact V|split; reflexivity|]. intros c _ X Y. split; assumption.
  Qed.

  Lemma Inv_addAccount m c p s x a b db db' : Inv db -> addAccount U m c p s x a b db = Ok db' -> Inv db'.
  Proof.
    unfold addAccount. intros V H. inv1 H. destruct a0 as [mID cID]. inv1 H. apply Ok_eq in H as <-.
    apply pairIDs_ok in E as [Q [R _]]. unpack V. constructor; fields; try assumption.
    destruct VA as [A [B C]]. split; [apply idsOk_tins; exact A|]. split.
    - apply Forall_tins; [exact B|]. cbn [snd aMy aContact]. split; [eapply qNymUID_key; exact Q|exact R].
    - apply NoDup_tins; [exact C|]. cbn [snd aMy aContact]. intros i r I W. apply negb_true_iff in E0.
      pose proof (thas_false _ _ E0 _ I) as T. cbn [snd] in T. unfold isAcc in T. injection W as W1 W2.
      rewrite W1, W2, !N.eqb_refl in T. discriminate.
  Qed.
  Lemma Inv_withAccounts_upd p f db : Inv db ->
    (forall a, aMy (f a) = aMy a /\ aContact (f a) = aContact a) ->
    Inv (withAccounts (tupd p f (dbAccounts db)) db).
  Proof.
    intros V K. unpack V. constructor; fields; try assumption.
    destruct VA as [A [B C]]. split; [apply idsOk_tupd; exact A|]. split.
    - apply Forall_tupd; [exact B|]. cbn [snd]. intros i a _ _ X. destruct (K a) as [-> ->]. exact X.
    - rewrite map_tupd; [exact C|]. cbn [snd]. intros i a _. destruct (K a) as [-> ->]. reflexivity.
  Qed.
  Lemma Inv_setAccountTime m c t db db' : Inv db -> setAccountTime U m c t db = Ok db' -> Inv db'.
  Proof.
    unfold setAccountTime. intros V H. inv1 H. destruct a as [mID cID]. apply Ok_eq in H as <-.
    apply Inv_withAccounts_upd; [exact V|split; reflexivity].
  Qed.
  Lemma Inv_setAccountLastMsg m c t db db' : Inv db -> setAccountLastMsg U m c t db = Ok db' -> Inv db'.
  Proof.
    unfold setAccountLastMsg. intros V H. inv1 H. destruct a as [mID cID]. apply Ok_eq in H as <-.
    apply Inv_withAccounts_upd; [exact V|split; reflexivity].
  Qed.

  Lemma Inv_insMsg m db : Inv db -> In (mSelf m) (nkeys (dbNyms db)) -> In (mPeer m, mSelf m) (ckeys (dbContacts db)) ->
    Inv (withMsgs (tins m (dbMsgs db)) db).
  Proof.
    intros V X Y. unpack V. constructor; fields; try assumption.
    - destruct VM as [A B]. split; [apply idsOk_tins; exact A|]. apply Forall_tins; [exact B|]. split; assumption.
    - eapply outOk_mono; [apply incl_refl|apply incl_tins|exact VO].
  Qed.
  Lemma Inv_addMessage s p d t m g a b db db' : Inv db -> addMessage U s p d t m g a b db = Ok db' -> Inv db'.
  Proof.
    unfold addMessage. intros V H. inv1 H. inv1 H. inv1 H. inv1 H. apply Ok_eq in H as <-.
    apply Inv_insMsg; [exact V| |]; cbn [mSelf mPeer]; [eapply qNymUID_key|eapply qContactUID_key]; eassumption.
  Qed.
  Lemma Inv_withMsgs_upd p f db : Inv db -> (forall m, mSelf (f m) = mSelf m /\ mPeer (f m) = mPeer m) ->
    Inv (withMsgs (tupd p f (dbMsgs db)) db).
  Proof.
    intros V K. unpack V.
    assert (MK : mkeys (tupd p f (dbMsgs db)) = mkeys (dbMsgs db)).
    { unfold mkeys. apply map_tupd. cbn [fst snd]. intros i a _. destruct (K a) as [-> _]. reflexivity. }
    constructor; fields; rewrite ?MK; try assumption.
    destruct VM as [A B]. split; [apply idsOk_tupd; exact A|].
    apply Forall_tupd; [exact B|]. cbn [snd]. intros i a _ _ X. destruct (K a) as [-> ->]. exact X.
  Qed.
  Lemma Inv_readMessage n db db' : Inv db -> readMessage n db = Ok db' -> Inv db'.
  Proof. unfold readMessage. intros V H. apply Ok_eq in H as <-. apply Inv_withMsgs_upd; [exact V|split; reflexivity]. Qed.
  Lemma Inv_delMessage m n db db' : Inv db -> delMessage U m n db = Ok db' -> Inv db'.
  Proof. unfold delMessage. intros V H. inv1 H. inv1 H. inv1 H. apply Ok_eq in H as <-. apply Inv_cascadeMsgs; exact V. Qed.

  Lemma Inv_insOut o db : Inv db -> In (oSelf o) (nkeys (dbNyms db)) ->
    (exists s, In (oMsgID o, s) (mkeys (dbMsgs db))) -> Inv (withOut (tins o (dbOut db)) db).
  Proof.
    intros V X Y. unpack V. constructor; fields; try assumption.
    destruct VO as [A B]. split; [apply idsOk_tins; exact A|]. apply Forall_tins; [exact B|]. split; assumption.
  Qed.
  Lemma Inv_withOut_upd p f db : Inv db -> (forall o, oSelf (f o) = oSelf o /\ oMsgID (f o) = oMsgID o) ->
    Inv (withOut (tupd p f (dbOut db)) db).
  Proof.
    intros V K. unpack V. constructor; fields; try assumption.
    destruct VO as [A B]. split; [apply idsOk_tupd; exact A|].
    apply Forall_tupd; [exact B|]. cbn [snd]. intros i a _ _ X. destruct (K a) as [-> ->]. exact X.
  Qed.
  Lemma Inv_withOut_del p db : Inv db -> Inv (withOut (tdel p (dbOut db)) db).
  Proof.
    intros V. unpack V. constructor; fields; try assumption.
    destruct VO as [A B]. split; [apply idsOk_tdel; exact A|apply Forall_tdel; exact B].
  Qed.
  Lemma Inv_addOutQueue m i e n a b db db' : Inv db -> addOutQueue U m i e n a b db = Ok db' -> Inv db'.
  Proof.
    unfold addOutQueue. intros V H. inv1 H. inv1 H. inv1 H. apply Ok_eq in H as <-.
    assert (V' : Inv (withMsgs (tupd (fun i0 _ => i0 =? i) (setToSend false) (dbMsgs db)) db))
      by (apply Inv_withMsgs_upd; [exact V|split; reflexivity]).
    apply (Inv_insOut (mkOq a1 i e n a b false false)) in V'.
    - exact V'.
    - fields. cbn [oSelf]. eapply qNymUID_key; eassumption.
    - fields. cbn [oMsgID]. unfold mkeys. rewrite map_tupd by reflexivity.
      apply thas_true in E1 as [[j r] [J P]]. cbn [fst] in P. apply N.eqb_eq in P as ->.
      exists (mSelf r). apply in_map_iff. exists (i, r). auto.
  Qed.
  Lemma Inv_removeOutQueue i d db db' : Inv db -> removeOutQueue i d db = Ok db' -> Inv db'.
  Proof.
    unfold removeOutQueue. intros V H. inv1 H. apply Ok_eq in H as <-.
    apply (Inv_withMsgs_upd (fun j _ => j =? oMsgID a) (setSent d)) in V; [|split; reflexivity].
    apply (Inv_withOut_del (fun j _ => j =? i)) in V. exact V.
  Qed.
  Lemma Inv_retractOutQueue i db db' : Inv db -> retractOutQueue i db = Ok db' -> Inv db'.
  Proof.
    unfold retractOutQueue. intros V H. inv1 H. apply Ok_eq in H as <-.
    apply (Inv_withMsgs_upd (fun j _ => j =? oMsgID a) (setToSend true)) in V; [|split; reflexivity].
    apply (Inv_withOut_del (fun j _ => j =? i)) in V. exact V.
  Qed.
  Lemma Inv_clearResend m db db' : Inv db -> clearResendOutQueue U m db = Ok db' -> Inv db'.
  Proof.
    unfold clearResendOutQueue. intros V H. invs H. apply Ok_eq in H as <-.
    apply Inv_withOut_upd; [exact V|split; reflexivity].
  Qed.
  Lemma Inv_addInQueue m c d x db db' : Inv db -> addInQueue U m c d x db = Ok db' -> Inv db'.
  Proof.
    unfold addInQueue. intros V H. inv1 H. destruct a as [mID cID]. apply Ok_eq in H as <-.
    apply pairIDs_ok in E as [Q [R _]]. unpack V. constructor; fields; try assumption.
    destruct VI as [A B]. split; [apply idsOk_tins; exact A|]. apply Forall_tins; [exact B|]. cbn [snd iMy iContact].
    split; [eapply qNymUID_key; exact Q|exact R].
  Qed.
  Lemma Inv_withIn_del p db : Inv db -> Inv (withIn (tdel p (dbIn db)) db).
  Proof.
    intros V. unpack V. constructor; fields; try assumption.
    destruct VI as [A B]. split; [apply idsOk_tdel; exact A|apply Forall_tdel; exact B].
  Qed.
  Lemma Inv_setInQueue i x db db' : Inv db -> setInQueue i x db = Ok db' -> Inv db'.
  Proof.
    unfold setInQueue. intros V H. apply Ok_eq in H as <-. unpack V. constructor; fields; try assumption.
    destruct VI as [A B]. split; [apply idsOk_tupd; exact A|].
    apply Forall_tupd; [exact B|]. cbn [snd iMy iContact]. intros j a _ _ X. exact X.
  Qed.
  Lemma Inv_removeInQueue i p f d db db' : Inv db -> removeInQueue U i p f d db = Ok db' -> Inv db'.
  Proof.
    unfold removeInQueue. intros V H. inv1 H. inv1 H. inv1 H. inv1 H. apply Ok_eq in H as <-.
    destruct d.
    - apply (Inv_withIn_del (fun j _ => j =? i)) in V. exact V.
    - assert (V' : Inv (withMsgs (tins (mkMsg (iMy a0) a1 false false false f a2 (iDate a0) (subjectOf p) p false 0 0 false) (dbMsgs db)) db)).
      { apply Inv_insMsg; [exact V| |]; cbn [mSelf mPeer].
        - destruct (iv_in _ V) as [_ B]. rewrite Forall_forall in B. apply tget_In in E0.
          destruct (B _ E0) as [X _]. exact X.
        - eapply qContactUID_key; exact E1. }
      apply (Inv_withIn_del (fun j _ => j =? i)) in V'. exact V'.
  Qed.
  Lemma Inv_addCache m c x db db' : Inv db -> addCache U m c x db = Ok db' -> Inv db'.
  Proof.
    unfold addCache. intros V H. inv1 H. inv1 H. inv1 H. inv1 H. destruct a2 as [mID cID]. apply Ok_eq in H as <-.
    apply pairIDs_ok in E2 as [Q [R _]]. unpack V. constructor; fields; try assumption.
    destruct VD as [A B]. split; [apply idsOk_tins; exact A|]. apply Forall_tins; [exact B|]. cbn [snd dMy dContact dMsgID].
    split; [eapply qNymUID_key; exact Q|]. split; [exact R|apply isNil_false; assumption].
  Qed.
  Lemma Inv_removeCache m c x db db' : Inv db -> removeCache U m c x db = Ok db' -> Inv db'.
  Proof.
    unfold removeCache. intros V H. inv1 H. inv1 H. inv1 H. inv1 H. destruct a2 as [mID cID].
    destruct (tmin _ _) as [[e r]|]; [|discriminate]. apply Ok_eq in H as <-.
    unpack V. constructor; fields; try assumption.
    destruct VD as [A B]. split; [apply idsOk_tdel; exact A|apply Forall_tdel; exact B].
  Qed.

  Lemma Inv_dexec o db db' : Inv db -> dexec U o db = Ok db' -> Inv db'.
  Proof.
    intros V. destruct o; cbn [dexec]; intros H.
    - eapply Inv_addValue; eassumption.
    - eapply Inv_addNym; eassumption.
    - eapply Inv_delNym; eassumption.
    - eapply Inv_setUpkeepAll; eassumption.
    - eapply Inv_setUpkeepAccounts; eassumption.
    - eapply Inv_addContact; eassumption.
    - eapply Inv_removeContact; eassumption.
    - eapply Inv_addAccount; eassumption.
    - eapply Inv_setAccountTime; eassumption.
    - eapply Inv_setAccountLastMsg; eassumption.
    - eapply Inv_addMessage; eassumption.
    - eapply Inv_readMessage; eassumption.
    - eapply Inv_delMessage; eassumption.
    - eapply Inv_addOutQueue; eassumption.
    - apply Ok_eq in H as <-. apply Inv_withOut_upd; [exact V|split; reflexivity].
    - eapply Inv_removeOutQueue; eassumption.
    - eapply Inv_retractOutQueue; eassumption.
    - apply Ok_eq in H as <-. apply Inv_withOut_upd; [exact V|split; reflexivity].
    - eapply Inv_clearResend; eassumption.
    - eapply Inv_addInQueue; eassumption.
    - eapply Inv_setInQueue; eassumption.
    - eapply Inv_removeInQueue; eassumption.
    - apply Ok_eq in H as <-. apply Inv_withIn_del; exact V.
    - eapply Inv_addCache; eassumption.
    - eapply Inv_removeCache; eassumption.
  Qed.
  Lemma Inv_dstep o db : Inv db -> Inv (dstep U db o).
  Proof. intros V. unfold dstep. destruct (dexec U o db) eqn:E; try exact V. eapply Inv_dexec; eassumption. Qed.
  Lemma Inv_drun ops db : Inv db -> Inv (drun U ops db).
  Proof. revert db. induction ops as [|o ops IH]; intros db V; [exact V|]. cbn [drun fold_left]. apply IH, Inv_dstep, V. Qed.
End Inv.
