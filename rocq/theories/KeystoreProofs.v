(* The key database simulates the in-memory store as long as no session is extended. *)
From Verif Require Import Base Base64Model CodecModel IdentityModel IdentityProofs JsonModel Maps CryptoModel StoreModel KeysModel KeysProofs MsgFormatModel HeaderModel ProtoModel SqlModel SqlProofs KeyDBModel KeyDBProofs PropsKeyDB KeystoreModel.
Local Open Scope N_scope.

(* ------------------------------------------------------------------ *)
(* Specification.                                                      *)
(* the same answer: the texts of errors may differ *)
Definition agree {A} (r1 r2 : res A) : Prop :=
  match r1, r2 with Ok a, Ok b => a = b | Err _, Err _ => True | Panic, Panic => True | _, _ => False end.
(* A write that both stores understand alike: counters that fit a SQLite integer, a session that is new, a session key that is new
   and not empty. *)
Definition opClean (st : store) (o : op) : Prop :=
  match o with
  | OSetState _ s => stSessCount s < 2 ^ 63 /\ stMsgCount s < 2 ^ 63 /\ stMaxRecv s < 2 ^ 63
  | OStoreSession sk _ _ send _ => mget sk (sessions st) = None /\ lenN send < 2 ^ 63
  | OAddSessionKey h _ p c => mget h (skeys st) = None /\ p <> [] /\ c < 2 ^ 63
  | ODelPriv h => h <> []
  | _ => True
  end.
Fixpoint clean (st : store) (tr : list op) : Prop :=
  match tr with
  | [] => True
  | o :: tr' => opClean st o /\ clean (apply_op o st) tr'
  end.
Definition applyAll (tr : list op) (st : store) : store := fold_left (fun s o => apply_op o s) tr st.
Lemma clean_app st a b : clean st (a ++ b) <-> clean st a /\ clean (applyAll a st) b.
Proof. revert st; induction a as [|o a IH]; intros st; cbn [app clean applyAll fold_left]; [tauto|]. rewrite IH. unfold applyAll. tauto. Qed.
Lemma applyAll_app a b st : applyAll (a ++ b) st = applyAll b (applyAll a st).
Proof. unfold applyAll. apply fold_left_app. Qed.

(* ------------------------------------------------------------------ *)
(* What the database holds when the in-memory store is [st].           *)
Definition slot (k : bytes) : option bytes := if beq k [] then None else Some k.
Definition slotsOf (s : sess) : slots := (map slot (sSend s), map slot (sRecv s)).
Record relS (st : store) (w : dbw) : Prop := {
  rs_priv : bPriv w = privKEs st;
  rs_pub : bPub w = pubKEs st;
  rs_sess : exists m, sInv (bDB w) m /\ forall sk, mget sk m = match mget sk (sessions st) with Some s => Some (slotsOf s) | None => None end;
  rs_row : forall sk, dbSession sk (bDB w) = match mget sk (sessions st) with Some s => Some (sRoot s, sChain s, lenN (sSend s)) | None => None end;
  rs_len : forall sk s, mget sk (sessions st) = Some s -> lenN (sSend s) = lenN (sRecv s) /\ lenN (sSend s) < 2 ^ 63;
  rs_stids : idsOk (kStates (bDB w));
  rs_state : forall k, stRead k (bDB w) = match mget k (states st) with Some s => Some (stateRow k s) | None => None end;
  rs_skids : idsOk (kSKeys (bDB w));
  rs_skey : forall h, h <> [] -> skRead h (bDB w) = match mget h (skeys st) with Some k => Some (skJson k, skPriv k) | None => None end;
  rs_nokey : mget [] (skeys st) = None }.
Definition rel (w1 : world) (w2 : dbw) : Prop := relS (wStore w1) w2 /\ wOut w1 = bOut w2.
Definition setDB (d : keydb) (w : dbw) : dbw := mkDBW (bPriv w) (bPub w) d (bOut w).

(* ------------------------------------------------------------------ *)
(* Simulation of computations.                                         *)
Definition ext {A} (m : G world A) : Prop :=
  forall w r w', m w = (r, w') -> exists tr, wTrace w' = wTrace w ++ tr /\ wStore w' = applyAll tr (wStore w).
Definition sim {A} (P : world -> Prop) (m1 : G world A) (m2 : G dbw A) (Q : A -> world -> Prop) : Prop :=
  ext m1 /\
  forall w1 w2 r1 w1' tr, rel w1 w2 -> P w1 -> m1 w1 = (r1, w1') -> wTrace w1' = wTrace w1 ++ tr -> clean (wStore w1) tr ->
  exists r2 w2', m2 w2 = (r2, w2') /\ agree r1 r2 /\ rel w1' w2' /\ (forall a, r1 = Ok a -> Q a w1').
Definition TT : world -> Prop := fun _ => True.
Definition T1 {A} : A -> world -> Prop := fun _ _ => True.

Lemma ext_pure {A} (m : G world A) : (forall w, snd (m w) = w) -> ext m.
Proof. intros H w r w' E. specialize (H w). rewrite E in H. cbn [snd] in H. subst w'. exists []. rewrite app_nil_r. split; reflexivity. Qed.
Lemma ext_emit o : ext (emit o).
Proof. intros w r w' E. unfold emit in E. injection E as <- <-. exists [o]. split; reflexivity. Qed.
Lemma ext_bind {A B} (m : G world A) (f : A -> G world B) : ext m -> (forall a, ext (f a)) -> ext (gbind m f).
Proof.
  intros E1 E2 w r w' H. unfold gbind in H. destruct (m w) as [[a|e|] wm] eqn:M; destruct (E1 _ _ _ M) as (t1 & T & S).
  - destruct (E2 a _ _ _ H) as (t2 & T' & S'). exists (t1 ++ t2). rewrite T', T, app_assoc, S', S, applyAll_app. split; reflexivity.
  - injection H as <- <-. exists t1. split; assumption.
  - injection H as <- <-. exists t1. split; assumption.
Qed.
Lemma sim_bind {A B} P (m1 : G world A) m2 Q (f1 : A -> G world B) f2 R :
  sim P m1 m2 Q -> (forall a, sim (Q a) (f1 a) (f2 a) R) -> sim P (gbind m1 f1) (gbind m2 f2) R.
Proof.
  intros [E1 S1] SF. split; [apply ext_bind; [exact E1|intros a; apply (SF a)]|].
  intros w1 w2 r1 w1' tr RL PP H T CL. unfold gbind in H. destruct (m1 w1) as [[a|e|] wm] eqn:M; destruct (E1 _ _ _ M) as (t1 & Tm & Sm).
  - destruct (SF a) as [E2 S2]. destruct (E2 _ _ _ H) as (t2 & Tf & Sf). rewrite Tf, Tm, <- app_assoc in T. apply app_inv_head in T. subst tr.
    apply clean_app in CL as [CL1 CL2]. rewrite <- Sm in CL2.
    destruct (S1 _ _ _ _ _ RL PP M Tm CL1) as (r2 & w2m & M2 & AG & RL2 & Q2). unfold agree in AG. destruct r2 as [b|e|]; try contradiction. subst b.
    destruct (S2 _ _ _ _ _ RL2 (Q2 a eq_refl) H Tf CL2) as (r3 & w3 & M3 & AG3 & RL3 & Q3).
    exists r3, w3. unfold gbind. rewrite M2. split; [exact M3|]. split; [exact AG3|]. split; assumption.
  - injection H as <- <-. rewrite Tm in T. apply app_inv_head in T. subst tr.
    destruct (S1 _ _ _ _ _ RL PP M Tm CL) as (r2 & w2m & M2 & AG & RL2 & Q2). unfold agree in AG. destruct r2 as [b|e'|]; try contradiction.
    exists (Err e'), w2m. unfold gbind. rewrite M2. split; [reflexivity|]. split; [exact I|]. split; [exact RL2|discriminate].
  - injection H as <- <-. rewrite Tm in T. apply app_inv_head in T. subst tr.
    destruct (S1 _ _ _ _ _ RL PP M Tm CL) as (r2 & w2m & M2 & AG & RL2 & Q2). unfold agree in AG. destruct r2 as [b|e'|]; try contradiction.
    exists Panic, w2m. unfold gbind. rewrite M2. split; [reflexivity|]. split; [exact I|]. split; [exact RL2|discriminate].
Qed.
Lemma agree_refl {A} (r : res A) : agree r r.
Proof. destruct r; exact I || reflexivity. Qed.
Lemma sim_lift {A} P (r : res A) : sim P (glift r) (glift r) (fun _ => P).
Proof.
  split; [apply ext_pure; reflexivity|]. intros w1 w2 r1 w1' tr RL PP H _ _. unfold glift in *. apply pair_equal_spec in H as [<- <-].
  exists r, w2. split; [reflexivity|]. split; [apply agree_refl|]. split; [exact RL|intros; exact PP].
Qed.
Lemma sim_ret {A} (P : world -> Prop) (a : A) (Q : A -> world -> Prop) : (forall w, P w -> Q a w) -> sim P (gret a) (gret a) Q.
Proof.
  intros PQ. split; [apply ext_pure; reflexivity|]. intros w1 w2 r1 w1' tr RL PP H _ _. unfold gret in *. apply pair_equal_spec in H as [<- <-].
  exists (Ok a), w2. split; [reflexivity|]. split; [reflexivity|]. split; [exact RL|]. intros b Hb. apply (f_equal (fun x => match x with Ok y => y | _ => b end)) in Hb. cbn in Hb. subst b. apply PQ, PP.
Qed.
Lemma sim_fail {A} P e (Q : A -> world -> Prop) : sim P (gfail e) (gfail e) Q.
Proof.
  split; [apply ext_pure; reflexivity|]. intros w1 w2 r1 w1' tr RL PP H _ _. unfold gfail in *. apply pair_equal_spec in H as [<- <-].
  exists (Err e), w2. split; [reflexivity|]. split; [exact I|]. split; [exact RL|discriminate].
Qed.
(* a computation that only reads *)
Lemma sim_read {A} (P : world -> Prop) (f1 : world -> res A) (f2 : dbw -> res A) (Q : A -> world -> Prop) :
  (forall w1 w2, rel w1 w2 -> P w1 -> agree (f1 w1) (f2 w2) /\ forall a, f1 w1 = Ok a -> Q a w1) ->
  sim P (fun w => (f1 w, w)) (fun w => (f2 w, w)) Q.
Proof.
  intros H. split; [apply ext_pure; reflexivity|]. intros w1 w2 r1 w1' tr RL PP E _ _. apply pair_equal_spec in E as [<- <-].
  destruct (H w1 w2 RL PP) as [AG QQ]. exists (f2 w2), w2. split; [reflexivity|]. split; [exact AG|]. split; assumption.
Qed.
(* a write *)
Lemma sim_emit (P : world -> Prop) o (f : keydb -> res keydb) (Q : unit -> world -> Prop) :
  out_of o = [] ->
  (forall w1 w2, rel w1 w2 -> P w1 -> opClean (wStore w1) o -> exists d, f (bDB w2) = Ok d /\ relS (apply_op o (wStore w1)) (setDB d w2)) ->
  (forall w1, P w1 -> Q tt (step_op w1 o)) ->
  sim P (emit o) (wr f) Q.
Proof.
  intros OO H HQ. split; [apply ext_emit|]. intros w1 w2 r1 w1' tr RL PP E T CL. unfold emit in E. apply pair_equal_spec in E as [<- <-].
  unfold step_op in T. cbn [wTrace] in T. apply app_inv_head in T. subst tr. destruct CL as [OC _].
  destruct (H w1 w2 RL PP OC) as (d & F & R). exists (Ok tt), (setDB d w2). unfold wr. rewrite F. split; [reflexivity|]. split; [reflexivity|]. split.
  - split; [exact R|]. unfold step_op. cbn [wOut]. rewrite OO, app_nil_r. apply RL.
  - intros [] _. apply HQ, PP.
Qed.
Lemma sim_weak {A} P m1 m2 (Q Q' : A -> world -> Prop) : sim P m1 m2 Q -> (forall a w, Q a w -> Q' a w) -> sim P m1 m2 Q'.
Proof.
  intros [E S] W. split; [exact E|]. intros w1 w2 r1 w1' tr RL PP H T CL. destruct (S _ _ _ _ _ RL PP H T CL) as (r2 & w2' & M & AG & R & QQ).
  exists r2, w2'. split; [exact M|]. split; [exact AG|]. split; [exact R|]. intros a Ha. apply W, QQ, Ha.
Qed.
Lemma sim_pre {A} (P P' : world -> Prop) m1 m2 (Q : A -> world -> Prop) : sim P m1 m2 Q -> (forall w, P' w -> P w) -> sim P' m1 m2 Q.
Proof. intros [E S] W. split; [exact E|]. intros w1 w2 r1 w1' tr RL PP H T CL. eapply S; eauto. Qed.

(* ------------------------------------------------------------------ *)
(* The methods of the store.                                           *)
Lemma sim_getState P (k : bytes) : k <> [] -> sim P (getSessionState k) (rd (dbGetState k)) (fun _ => P).
Proof.
  intros K. apply (sim_read P (fun w => Ok (mget k (states (wStore w)))) (fun w => dbGetState k (bDB w))).
  intros w1 w2 [R _] PP. split; [|intros; exact PP]. pose proof (rs_state _ _ R k) as S. apply beq_neq in K.
  destruct (mget k (states (wStore w1))) as [s|].
  - rewrite (getState_read k (bDB w2) K s S). reflexivity.
  - unfold dbGetState. rewrite K. unfold stRead in S. destruct (tmin _ _) as [[? ?]|]; [discriminate S|reflexivity].
Qed.
Lemma kexec_kstep U o d d' : kexec U o d = Ok d' -> d' = kstep U d o.
Proof. intros E. unfold kstep. rewrite E. reflexivity. Qed.
Lemma sim_setState (P : world -> Prop) (k : bytes) s : k <> [] -> (forall w, P w -> P (step_op w (OSetState k s))) -> sim P (emit (OSetState k s)) (wr (dbSetState k s)) (fun _ => P).
Proof.
  intros K HP. apply sim_emit; [reflexivity| |exact HP]. intros w1 w2 [R _] _ (B1 & B2 & B3). set (d := bDB w2).
  assert (V : stateValid k s = true).
  { unfold stateValid. apply beq_neq in K. rewrite K. apply N.ltb_lt in B1, B2, B3. rewrite B1, B2, B3. reflexivity. }
  assert (E : exists d', kexec goUnicode (KSetState k s) d = Ok d').
  { cbn [kexec]. unfold dbSetState, sqlInt. apply beq_neq in K. rewrite K. apply N.ltb_lt in B1, B2, B3. rewrite B1, B2, B3. cbn [andb negb]. destruct (thas _ _); eexists; reflexivity. }
  destruct E as [d' E]. exists d'. split; [exact E|]. rewrite (kexec_kstep _ _ _ _ E).
  destruct (rs_sess _ _ R) as (m & SI & SM). split; cbn [bPriv bPub bDB setDB apply_op privKEs pubKEs states sessions skeys].
  - apply (rs_priv _ _ R).
  - apply (rs_pub _ _ R).
  - exists m. split; [apply (kstep_sess goUnicode d m (KSetState k s) SI); discriminate|exact SM].
  - intros sk. rewrite (proj2 (kstep_session goUnicode sk (KSetState k s) d (si_ids _ _ SI))). apply (rs_row _ _ R).
  - apply (rs_len _ _ R).
  - apply (kstep_states goUnicode (KSetState k s) d k (rs_stids _ _ R)).
  - intros k'. rewrite (proj2 (kstep_states goUnicode (KSetState k s) d k' (rs_stids _ _ R))). rewrite V, andb_true_r, mget_mset, (beq_sym k k').
    destruct (beq k' k) eqn:B; [apply beq_spec in B as ->; reflexivity|apply (rs_state _ _ R)].
  - apply (kstep_skeys goUnicode (KSetState k s) d (str "x")); [discriminate|apply (rs_skids _ _ R)].
  - intros h HN. destruct (kstep_skeys goUnicode (KSetState k s) d h HN (rs_skids _ _ R)) as [_ X]. rewrite X by discriminate. apply (rs_skey _ _ R _ HN).
  - apply (rs_nokey _ _ R).
Qed.
Lemma slot_all (l : list bytes) : ~ In [] l -> map slot l = map Some l.
Proof.
  induction l as [|x l IH]; intros NI; [reflexivity|]. cbn [map]. rewrite IH by (intros X; apply NI; right; exact X). unfold slot.
  destruct (beq x []) eqn:B; [apply beq_spec in B as ->; elim NI; left; reflexivity|reflexivity].
Qed.
Lemma sim_storeSession (P : world -> Prop) (sk rh ck : bytes) (send recv : list bytes) : sk <> [] -> rh <> [] -> ck <> [] -> ~ In [] send -> ~ In [] recv ->
  (forall w, P w -> P (step_op w (OStoreSession sk rh ck send recv))) ->
  sim P (storeSession sk rh ck send recv) (wr (addSession sk rh ck send recv)) (fun _ => P).
Proof.
  intros N1 N2 N3 NS NR HP. unfold storeSession. apply beq_neq in N1, N2, N3. destruct (lenN send =? lenN recv) eqn:L; cbn [negb].
  - apply sim_emit; [reflexivity| |exact HP]. intros w1 w2 [R _] _ [FR LT]. set (d := bDB w2). set (o := KAddSession sk rh ck send recv).
    assert (V : validAdd sk rh ck send recv = true) by (unfold validAdd; rewrite N1, N2, N3, L; reflexivity).
    destruct (rs_sess _ _ R) as (m & SI & SM). fold d in SI. assert (MN : mget sk m = None) by (rewrite SM, FR; reflexivity).
    assert (E : exists d', kexec goUnicode o d = Ok d').
    { cbn [kexec o]. unfold addSession. rewrite N1, N2, N3, L. cbn [negb]. rewrite (proj2 (si_none _ _ SI sk) MN). destruct (insKeys _ _ _ _ _ _). eexists; reflexivity. }
    destruct E as [d' E]. exists d'. split; [exact E|]. rewrite (kexec_kstep _ _ _ _ E). apply N.eqb_eq in L. cbn [apply_op]. rewrite FR.
    split; cbn [bPriv bPub bDB setDB privKEs pubKEs states sessions skeys].
    + apply (rs_priv _ _ R).
    + apply (rs_pub _ _ R).
    + exists (memStep m o). split.
      * apply (kstep_sess goUnicode d m o SI). intros ? ? ? ? ? Q _. injection Q as <- <- <- <- <-. exact MN.
      * intros sk'. cbn [memStep o]. rewrite V, MN, !mget_mset. destruct (beq sk' sk); [|apply SM].
        unfold slotsOf. cbn [sSend sRecv]. rewrite !slot_all by assumption. reflexivity.
    + intros sk'. rewrite (proj2 (kstep_session goUnicode sk' o d (si_ids _ _ SI))). cbn [sessSpec o]. rewrite V, andb_true_r, mget_mset, (beq_sym sk sk').
      destruct (beq sk' sk) eqn:B; [|apply (rs_row _ _ R)]. apply beq_spec in B as ->. subst d. rewrite (rs_row _ _ R), FR. reflexivity.
    + intros sk' s. rewrite mget_mset. destruct (beq sk' sk); [|apply (rs_len _ _ R)]. intros Q. injection Q as <-. cbn [sSend sRecv]. split; assumption.
    + apply (kstep_states goUnicode o d sk (rs_stids _ _ R)).
    + intros k'. rewrite (proj2 (kstep_states goUnicode o d k' (rs_stids _ _ R))). apply (rs_state _ _ R).
    + apply (kstep_skeys goUnicode o d (str "x")); [discriminate|apply (rs_skids _ _ R)].
    + intros h HN. destruct (kstep_skeys goUnicode o d h HN (rs_skids _ _ R)) as [_ X]. rewrite X by discriminate. apply (rs_skey _ _ R _ HN).
    + apply (rs_nokey _ _ R).
  - split; [apply ext_pure; reflexivity|]. intros w1 w2 r1 w1' tr RL PP H _ _. unfold fail in H. apply pair_equal_spec in H as [<- <-].
    exists (Err "keydb: len(send) != len(recv)"), w2. split; [|split; [exact I|split; [exact RL|discriminate]]]. unfold wr, addSession. rewrite N1, N2, N3, L. reflexivity.
Qed.
Lemma sim_hasSession P sk : sim P (hasSession sk) (rd (ceHasSession sk)) (fun _ => P).
Proof.
  apply (sim_read P (fun w => Ok (mhas sk (sessions (wStore w)))) (fun w => ceHasSession sk (bDB w))).
  intros w1 w2 [R _] PP. split; [|intros; exact PP]. unfold ceHasSession, mhas. rewrite (rs_row _ _ R). destruct (mget sk _); reflexivity.
Qed.
Lemma sim_privKE P h : sim P (getPrivateKeyEntry h) (ksPrivKE dbKS h) (fun _ => P).
Proof.
  apply (sim_read P (fun w => Ok (mget h (privKEs (wStore w)))) (fun w => Ok (mget h (bPriv w)))).
  intros w1 w2 [R _] PP. split; [|intros; exact PP]. rewrite (rs_priv _ _ R). reflexivity.
Qed.
Lemma sim_pubKE P id : sim P (getPublicKeyEntry id) (ksPubKE dbKS id) (fun _ => P).
Proof.
  apply (sim_read P (fun w => match mget id (pubKEs (wStore w)) with Some p => Ok p | None => Err "session: no key entry found" end)
                    (fun w => match mget id (bPub w) with Some p => Ok p | None => Err "session: no key entry found" end)).
  intros w1 w2 [R _] PP. split; [|intros; exact PP]. rewrite (rs_pub _ _ R). apply agree_refl.
Qed.
(* the session has a key with this number *)
Definition hasKey (sk : bytes) (i : N) (w : world) : Prop := exists s, mget sk (sessions (wStore w)) = Some s /\ i < lenN (sSend s).
Lemma agree_decode n a b c d k : agree (decode_fixed n a b k) (decode_fixed n c d k).
Proof. unfold decode_fixed. destruct (b64dec k); [|exact I]. destruct (_ <? _); [exact I|reflexivity]. Qed.
Lemma nth_slot l i : i < lenN l -> nth_error (map slot l) (N.to_nat i) = Some (slot (nthN i l)).
Proof.
  intros L. unfold nthN. rewrite nth_error_map. rewrite (nth_error_nth' l []); [reflexivity|]. unfold lenN in L. lia.
Qed.
Lemma sim_msgKey P sk sender i : sim P (getMessageKey sk sender i) (rd (ceMsgKey sk sender i)) (fun _ w => P w /\ hasKey sk i w).
Proof.
  apply (sim_read P (fun w => getMessageKeyR sk sender i (wStore w)) (fun w => ceMsgKey sk sender i (bDB w))).
  intros w1 w2 [R _] PP. destruct (rs_sess _ _ R) as (m & SI & SM). pose proof (dbMessageKey_mem (bDB w2) m sk sender i SI) as D.
  unfold getMessageKeyR, memSession, ceMsgKey, hasKey. unfold memKey in D. rewrite SM in D.
  destruct (mget sk (sessions (wStore w1))) as [s|] eqn:MG; cbn [rbind].
  2: { destruct (dbMessageKey sk sender i (bDB w2)); [discriminate D|split; [exact I|discriminate]|contradiction]. }
  destruct (rs_len _ _ R sk s MG) as [LE LT]. destruct (N.leb_spec (lenN (sSend s)) i) as [LI|LI].
  - assert (X : nth_error (sideOf sender (slotsOf s)) (N.to_nat i) = None).
    { apply nth_error_None. unfold slotsOf, sideOf. unfold lenN in *. destruct sender; cbn [fst snd]; rewrite map_length; lia. }
    rewrite X in D. destruct (dbMessageKey sk sender i (bDB w2)); [destruct (i <? 2 ^ 63); discriminate D|split; [exact I|discriminate]|contradiction].
  - assert (B : (i <? 2 ^ 63) = true) by (apply N.ltb_lt; lia). rewrite B in D.
    assert (X : nth_error (sideOf sender (slotsOf s)) (N.to_nat i) = Some (slot (if sender then nthN i (sSend s) else nthN i (sRecv s)))).
    { unfold slotsOf, sideOf. destruct sender; cbn [fst snd]; apply nth_slot; lia. }
    rewrite X in D. set (key := if sender then nthN i (sSend s) else nthN i (sRecv s)) in *. unfold slot in D.
    destruct (beq key []) eqn:KE.
    + destruct (dbMessageKey sk sender i (bDB w2)); [discriminate D|split; [exact I|discriminate]|contradiction].
    + destruct (dbMessageKey sk sender i (bDB w2)) as [k|e|]; [|discriminate D|contradiction]. injection D as <-. cbn [rbind]. split; [apply agree_decode|].
      intros a _. split; [exact PP|]. exists s. split; [reflexivity|exact LI].
Qed.
Lemma sim_num P sk : sim P (numMessageKeys sk) (rd (ceNum sk)) (fun _ => P).
Proof.
  apply (sim_read P (fun w => do s <- memSession sk (wStore w); Ok (lenN (sSend s))) (fun w => ceNum sk (bDB w))).
  intros w1 w2 [R _] PP. split; [|intros; exact PP]. unfold ceNum, memSession, dbSessionR. rewrite (rs_row _ _ R). destruct (mget sk _); cbn [rbind]; [reflexivity|exact I].
Qed.
Lemma sim_root P sk : sim P (getRootKeyHash sk) (rd (ceRoot sk)) (fun _ => P).
Proof.
  apply (sim_read P (fun w => do s <- memSession sk (wStore w); decode_fixed 64 "memstore: cannot decode root key hash" "memstore: root key hash has wrong length" (sRoot s)) (fun w => ceRoot sk (bDB w))).
  intros w1 w2 [R _] PP. split; [|intros; exact PP]. unfold ceRoot, memSession, dbSessionR. rewrite (rs_row _ _ R). destruct (mget sk _); cbn [rbind fst snd]; [apply agree_decode|exact I].
Qed.
Lemma sim_chain P sk : sim P (getChainKey sk) (rd (ceChain sk)) (fun _ => P).
Proof.
  apply (sim_read P (fun w => do s <- memSession sk (wStore w); decode_fixed 32 "memstore: cannot decode chain key" "memstore: chain key has wrong length" (sChain s)) (fun w => ceChain sk (bDB w))).
  intros w1 w2 [R _] PP. split; [|intros; exact PP]. unfold ceChain, memSession, dbSessionR. rewrite (rs_row _ _ R). destruct (mget sk _); cbn [rbind fst snd]; [apply agree_decode|exact I].
Qed.
Lemma clear_slot l n : map slot (set_nth n [] l) = clear n (map slot l).
Proof. revert n; induction l as [|x l IH]; intros [|n]; try reflexivity. cbn [set_nth map clear]. rewrite IH. reflexivity. Qed.
Lemma set_nth_lenN n x l : lenN (set_nth n x l) = lenN l.
Proof. unfold lenN. f_equal. revert n; induction l as [|y l IH]; intros [|n]; try reflexivity. cbn [set_nth length]. rewrite IH. reflexivity. Qed.
Lemma sim_delMsgKey sk sender i : sim (hasKey sk i) (delMessageKey sk sender i) (wr (dbDelMessageKey sk sender i)) T1.
Proof.
  split.
  { unfold delMessageKey. apply ext_bind; [apply ext_pure; reflexivity|]. intros n. destruct (n <=? i); [apply ext_pure; reflexivity|apply ext_emit]. }
  intros w1 w2 r1 w1' tr RL PP H T CL. pose proof PP as (s & MG & LI).
  unfold delMessageKey, mbind, numMessageKeys, memSession in H. rewrite MG in H. cbn [rbind] in H. destruct (N.leb_spec (lenN (sSend s)) i) as [X|_]; [lia|].
  refine (proj2 (sim_emit (hasKey sk i) (ODelMsgKey sk sender i) (dbDelMessageKey sk sender i) T1 eq_refl _ (fun _ _ => I)) w1 w2 r1 w1' tr RL PP H T CL).
  clear - sk. intros w1 w2 [R _] (s & MG & LI) _. set (d := bDB w2). set (o := KDelMessageKey sk sender i). destruct (rs_sess _ _ R) as (m & SI & SM). fold d in SI.
  destruct (rs_len _ _ R sk s MG) as [LE LT]. assert (B : (i <? 2 ^ 63) = true) by (apply N.ltb_lt; lia).
  assert (MN : mget sk m = Some (slotsOf s)) by (rewrite SM, MG; reflexivity).
  assert (E : exists d', kexec goUnicode o d = Ok d').
  { cbn [kexec o]. unfold dbDelMessageKey. destruct (tmin (bySess sk) (kSess d)) as [[sid r]|] eqn:TM; [|apply (si_none _ _ SI) in TM; congruence]. unfold sqlInt. rewrite B. eexists; reflexivity. }
  destruct E as [d' E]. exists d'. split; [exact E|]. rewrite (kexec_kstep _ _ _ _ E). cbn [apply_op]. rewrite MG.
  split; cbn [bPriv bPub bDB setDB privKEs pubKEs states sessions skeys].
  - apply (rs_priv _ _ R).
  - apply (rs_pub _ _ R).
  - exists (memStep m o). split; [apply (kstep_sess goUnicode d m o SI); discriminate|].
    intros sk'. cbn [memStep o]. rewrite MN, B, !mget_mset. destruct (beq sk' sk); [|apply SM].
    unfold slotsOf, clearSide. destruct sender; cbn [sSend sRecv fst snd]; rewrite clear_slot; reflexivity.
  - intros sk'. rewrite (proj2 (kstep_session goUnicode sk' o d (si_ids _ _ SI))). cbn [sessSpec o]. rewrite mget_mset. subst d. rewrite (rs_row _ _ R).
    destruct (beq sk' sk) eqn:BB; [|reflexivity]. apply beq_spec in BB as ->. rewrite MG. destruct sender; cbn [sSend sRecv sRoot sChain]; rewrite ?set_nth_lenN; reflexivity.
  - intros sk' s'. rewrite mget_mset. destruct (beq sk' sk); [|apply (rs_len _ _ R)]. intros Q. injection Q as <-. destruct sender; cbn [sSend sRecv]; rewrite set_nth_lenN; split; assumption.
  - apply (kstep_states goUnicode o d sk (rs_stids _ _ R)).
  - intros k'. rewrite (proj2 (kstep_states goUnicode o d k' (rs_stids _ _ R))). apply (rs_state _ _ R).
  - apply (kstep_skeys goUnicode o d (str "x")); [discriminate|apply (rs_skids _ _ R)].
  - intros h HN. destruct (kstep_skeys goUnicode o d h HN (rs_skids _ _ R)) as [_ X]. rewrite X by discriminate. apply (rs_skey _ _ R _ HN).
  - apply (rs_nokey _ _ R).
Qed.
Lemma sim_addSKey (P : world -> Prop) (h j p : bytes) c : h <> [] -> j <> [] -> (forall w, P w -> P (step_op w (OAddSessionKey h j p c))) ->
  sim P (emit (OAddSessionKey h j p c)) (wr (dbAddSessionKey h j p c)) (fun _ => P).
Proof.
  intros N1 N2 HP. apply sim_emit; [reflexivity| |exact HP]. intros w1 w2 [R _] _ (FR & N3 & LT). set (d := bDB w2). set (o := KAddSessionKey h j p c).
  assert (V : skeyValid h j p c = true).
  { unfold skeyValid. apply beq_neq in N1, N2, N3. apply N.ltb_lt in LT. rewrite N1, N2, N3, LT. reflexivity. }
  pose proof (addSessionKey_ok h j p c d V) as E. change (kexec goUnicode o d = Ok (setSKeys (tins (mkSkR h j p c) (kSKeys d)) (nextId (kSKeys d)) d)) in E.
  eexists. split; [exact E|]. rewrite (kexec_kstep _ _ _ _ E).
  destruct (rs_sess _ _ R) as (m & SI & SM). split; cbn [bPriv bPub bDB setDB apply_op privKEs pubKEs states sessions skeys].
  - apply (rs_priv _ _ R).
  - apply (rs_pub _ _ R).
  - exists m. split; [apply (kstep_sess goUnicode d m o SI); discriminate|exact SM].
  - intros sk. rewrite (proj2 (kstep_session goUnicode sk o d (si_ids _ _ SI))). apply (rs_row _ _ R).
  - apply (rs_len _ _ R).
  - apply (kstep_states goUnicode o d h (rs_stids _ _ R)).
  - intros k'. rewrite (proj2 (kstep_states goUnicode o d k' (rs_stids _ _ R))). apply (rs_state _ _ R).
  - apply (kstep_skeys goUnicode o d (str "x")); [discriminate|apply (rs_skids _ _ R)].
  - intros h' HN. destruct (kstep_skeys goUnicode o d h' HN (rs_skids _ _ R)) as [_ X]. rewrite X.
    + cbn [memSKey o]. rewrite V, andb_true_r, mget_mset, (beq_sym h h'). destruct (beq h' h) eqn:B; [reflexivity|apply (rs_skey _ _ R _ HN)].
    + intros h2 j2 p2 c2 Q VV. injection Q as <- <- <- <-. apply andb_prop in VV as [BB _]. apply beq_spec in BB as <-. subst d. rewrite (rs_skey _ _ R _ HN), FR. reflexivity.
  - rewrite mget_mset. destruct (beq [] h) eqn:B; [apply beq_spec in B; congruence|apply (rs_nokey _ _ R)].
Qed.
Lemma sim_delPriv (P : world -> Prop) h : (forall w, P w -> P (step_op w (ODelPriv h))) -> sim P (emit (ODelPriv h)) (wr (dbDelPriv h)) (fun _ => P).
Proof.
  intros HP. apply sim_emit; [reflexivity| |exact HP]. intros w1 w2 [R _] _ N1. set (d := bDB w2). set (o := KDelPriv h).
  assert (E : exists d', kexec goUnicode o d = Ok d') by (cbn [kexec o]; unfold dbDelPriv; apply beq_neq in N1; rewrite N1; eexists; reflexivity).
  destruct E as [d' E]. exists d'. split; [exact E|]. rewrite (kexec_kstep _ _ _ _ E).
  destruct (rs_sess _ _ R) as (m & SI & SM). cbn [apply_op].
  assert (X : forall h', h' <> [] -> skRead h' (kstep goUnicode d o) = memSKey h' (skRead h' d) o).
  { intros h' HN. apply (kstep_skeys goUnicode o d h' HN (rs_skids _ _ R)). discriminate. }
  assert (IDS : idsOk (kSKeys (kstep goUnicode d o))) by (apply (kstep_skeys goUnicode o d (str "x")); [discriminate|apply (rs_skids _ _ R)]).
  destruct (mget h (skeys (wStore w1))) as [k|] eqn:MG; split; cbn [bPriv bPub bDB setDB privKEs pubKEs states sessions skeys];
    try apply (rs_priv _ _ R); try apply (rs_pub _ _ R); try apply (rs_len _ _ R); try exact IDS;
    try (exists m; split; [apply (kstep_sess goUnicode d m o SI); discriminate|exact SM]);
    try (intros sk; rewrite (proj2 (kstep_session goUnicode sk o d (si_ids _ _ SI))); apply (rs_row _ _ R));
    try (apply (kstep_states goUnicode o d h (rs_stids _ _ R)));
    try (intros k'; rewrite (proj2 (kstep_states goUnicode o d k' (rs_stids _ _ R))); apply (rs_state _ _ R)).
  - intros h' HN. rewrite (X h' HN). cbn [memSKey o]. rewrite mget_mset, (beq_sym h h'). subst d. rewrite (rs_skey _ _ R _ HN).
    destruct (beq h' h) eqn:B; [|reflexivity]. apply beq_spec in B as ->. rewrite MG. reflexivity.
  - rewrite mget_mset. destruct (beq [] h) eqn:B; [apply beq_spec in B; congruence|apply (rs_nokey _ _ R)].
  - intros h' HN. rewrite (X h' HN). cbn [memSKey o]. rewrite (beq_sym h h'). subst d. rewrite (rs_skey _ _ R _ HN).
    destruct (beq h' h) eqn:B; [|reflexivity]. apply beq_spec in B as ->. rewrite MG. reflexivity.
  - apply (rs_nokey _ _ R).
Qed.
Lemma sim_out (P : world -> Prop) b : (forall w, P w -> P (step_op w (OOutput b))) -> sim P (emit (OOutput b)) (ksOut dbKS b) (fun _ => P).
Proof.
  intros HP. split; [apply ext_emit|]. intros w1 w2 r1 w1' tr [R O] PP E _ _. unfold emit in E. apply pair_equal_spec in E as [<- <-].
  eexists (Ok tt), _. split; [reflexivity|]. split; [reflexivity|]. split; [|intros; apply HP, PP].
  split; [|unfold step_op; cbn [wOut out_of bOut]; rewrite O; reflexivity]. destruct R. split; assumption.
Qed.

(* ------------------------------------------------------------------ *)
(* The functions of the protocol.                                      *)
Lemma b64enc_ne b : b <> [] -> b64enc b <> [].
Proof. destruct b as [|x [|y [|z b]]]; [contradiction| | |]; intros _ E; discriminate E. Qed.
Lemma lenN_ne (b : bytes) n : lenN b = n -> n <> 0 -> b <> [].
Proof. intros L N ->. rewrite lenN_nil in L. congruence. Qed.
Lemma sha_ne C m : b64enc (sha512 C m) <> [].
Proof. apply b64enc_ne. eapply lenN_ne; [apply sha512_len|discriminate]. Qed.
Lemma keysFor_ne C root pub fix_ n : ~ In [] (keysFor C root pub fix_ n).
Proof.
  intros I. unfold keysFor in I. apply in_map_iff in I as (i & E & _). unfold msgKeyText in E. revert E. apply b64enc_ne.
  eapply lenN_ne; [apply hmac512_len|discriminate].
Qed.
Section Sim.
Variable C : Crypto.
Notation GM f := (f C world memKS).
Notation GD f := (f C dbw dbKS).
Lemma sim_generate a b c d root (rk : bool) sp rp n : sim TT (generateMessageKeysG C world memKS a b c d root rk sp rp n) (generateMessageKeysG C dbw dbKS a b c d root rk sp rp n) (fun _ => TT).
Proof.
  unfold generateMessageKeysG. rewrite keyLoop_spec.
  assert (CK : b64enc (if n =? 0 then zeros 32 else chainAt C root (N.to_nat n)) <> []).
  { apply b64enc_ne. destruct (N.eqb_spec n 0); [discriminate|]. destruct (N.to_nat n) as [|k] eqn:E; [lia|]. eapply lenN_ne; [apply nextChain_len|discriminate]. }
  destruct rk; apply sim_storeSession; try apply sha_ne; try exact CK; try apply keysFor_ne; intros; exact I.
Qed.
Lemma sim_lift' {A} (r : res A) : sim TT (glift r) (glift r) (fun _ => TT).
Proof. apply (sim_lift TT). Qed.
Lemma sim_agreeSender a b c d e f g h i j k : sim TT (rootKeyAgreementSenderG C world memKS a b c d e f g h i j k) (rootKeyAgreementSenderG C dbw dbKS a b c d e f g h i j k) (fun _ => TT).
Proof. unfold rootKeyAgreementSenderG. do 8 (eapply sim_bind; [apply sim_lift'|intros ?]). apply sim_generate. Qed.
Lemma sim_agreeRecipient a b c d e f g h i j k : sim TT (rootKeyAgreementRecipientG C world memKS a b c d e f g h i j k) (rootKeyAgreementRecipientG C dbw dbKS a b c d e f g h i j k) (fun _ => TT).
Proof. unfold rootKeyAgreementRecipientG. do 8 (eapply sim_bind; [apply sim_lift'|intros ?]). apply sim_generate. Qed.
Lemma sim_addSessionKey priv p c : sim TT (addSessionKeyG world memKS (initDHKey C priv) p c) (addSessionKeyG dbw dbKS (initDHKey C priv) p c) (fun _ => TT).
Proof. unfold addSessionKeyG. apply sim_addSKey; [apply sha_ne|discriminate|intros; exact I]. Qed.
Lemma sim_getSessionKey h : sim TT (getSessionKeyG world memKS h) (getSessionKeyG dbw dbKS h) (fun _ => TT).
Proof.
  set (fin := fun (k : skey) => match newJSONKeyEntry (skJson k) with
    | Ok ke => if beq (skPriv k) [] then Ok (ke, None)
               else match b64dec (skPriv k) with
               | None => Err "base64"
               | Some p => if beq (keFunc ke) fECDHE || beq (keFunc ke) fED25519
                           then (if lenN p =? (if beq (keFunc ke) fECDHE then 32 else 64) then Ok (ke, Some p) else Err "cipher: SetPrivateKey")
                           else Err "uid: unknown FUNCTION in KeyEntry"
               end
    | Err e => Err e | Panic => Panic end : res (keyEntry * option bytes)).
  assert (EQ : forall W (K : kstore W) f, ksGetSKey K h = (fun w => (f w, w)) -> forall w, getSessionKeyG W K h w =
     (match f w with Ok (Some k) => fin k | Ok None => Err "session: no key entry found" | Err e => Err e | Panic => Panic end, w)).
  { intros W K f E w. unfold getSessionKeyG, gbind. rewrite E. destruct (f w) as [[k|]|e|]; try reflexivity. unfold fin, glift.
    destruct (newJSONKeyEntry (skJson k)) as [ke|e|]; try reflexivity. destruct (beq (skPriv k) []); [reflexivity|].
    destruct (b64dec (skPriv k)); [|reflexivity]. destruct (_ || _); [|reflexivity]. destruct (_ =? _); reflexivity. }
  pose proof (EQ world memKS (fun w => Ok (mget h (skeys (wStore w)))) eq_refl) as E1.
  pose proof (EQ dbw dbKS (fun w => ceGetSKey h (bDB w)) eq_refl) as E2.
  split; [apply ext_pure; intros w; rewrite E1; reflexivity|].
  intros w1 w2 r1 w1' tr RL PP H _ _. rewrite E1 in H. apply pair_equal_spec in H as [<- <-]. rewrite E2.
  eexists _, w2. split; [reflexivity|]. split; [|split; [exact RL|intros; exact I]]. destruct RL as [R _].
  unfold ceGetSKey, dbGetSessionKey. destruct (beq h []) eqn:B.
  - apply beq_spec in B as ->. rewrite (rs_nokey _ _ R). exact I.
  - apply beq_neq in B. pose proof (rs_skey _ _ R h B) as S. unfold skRead in S. destruct (tmin (bySKey h) (kSKeys (bDB w2))) as [[? r]|].
    + destruct (mget h (skeys (wStore w1))) as [k|]; [|discriminate S]. injection S as S1 S2. unfold fin. cbn [skJson skPriv]. rewrite S1, S2. apply agree_refl.
    + destruct (mget h (skeys (wStore w1))) as [k|]; [discriminate S|exact I].
Qed.
Lemma sim_setNext ss key priv c : key <> [] -> sim TT (setNextSenderSessionPubG C world memKS ss key priv c) (setNextSenderSessionPubG C dbw dbKS ss key priv c) (fun _ => TT).
Proof.
  intros K. unfold setNextSenderSessionPubG. eapply sim_bind; [apply sim_addSessionKey|intros ?].
  eapply sim_bind; [apply (sim_setState TT); [exact K|intros; exact I]|intros ?]. apply sim_ret; intros; exact I.
Qed.
Lemma key_ne a b : calcStateKey C a b <> [].
Proof. apply sha_ne. Qed.
Ltac hd t := lazymatch t with ?f _ => hd f | _ => t end.
Ltac one m := let h := hd m in
  lazymatch h with
  | @glift => apply sim_lift'
  | @ksPubKE => apply (sim_pubKE TT)
  | @ksPrivKE => apply (sim_privKE TT)
  | addSessionKeyG => apply sim_addSessionKey
  | rootKeyAgreementSenderG => apply sim_agreeSender
  | rootKeyAgreementRecipientG => apply sim_agreeRecipient
  | @ksSetState => apply (sim_setState TT); [assumption || apply key_ne|intros; exact I]
  | @ksRoot => apply (sim_root TT)
  | @ksNum => apply (sim_num TT)
  | @ksChain => apply (sim_chain TT)
  | @ksHasSession => apply (sim_hasSession TT)
  | getSessionKeyG => apply sim_getSessionKey
  | setNextSenderSessionPubG => apply sim_setNext; assumption || apply key_ne
  | @ksGetState => apply (sim_getState TT); apply key_ne
  | @ksDelPriv => apply (sim_delPriv TT); intros; exact I
  end.
Ltac step := lazymatch goal with
  | |- sim _ (gbind ?m _) _ _ => eapply sim_bind; [one m|intros ?]
  | |- sim _ (gret _) _ _ => apply sim_ret; intros; exact I
  end.
Ltac dx := match goal with |- sim _ (match ?x with _ => _ end) _ _ => destruct x end.
Lemma sim_encState a r : sim TT (encStateG C world memKS a r) (encStateG C dbw dbKS a r) (fun _ => TT).
Proof.
  unfold encStateG. do 4 step. eapply sim_bind.
  { destruct (eStatus a =? StatusReset); [apply (sim_ret TT) with (Q := fun _ => TT); intros; exact I|apply (sim_getState TT), key_ne]. }
  intros [ss|].
  - destruct (eStatus a =? StatusError); [step|]. destruct (stNextSender ss); [step|]. destruct (rCoin r); [|step].
    step. dx. step.
  - step. dx. repeat step.
Qed.
Lemma sim_encKey a ss : sim TT (encKeyG C world memKS a ss) (encKeyG C dbw dbKS a ss) (fun x w => hasKey (fst x) (stMsgCount ss) w).
Proof.
  unfold encKeyG. do 3 step. eapply sim_bind with (Q := fun _ => TT).
  { destruct (_ <=? _); [|step]. do 3 step. apply sim_generate. }
  intros ?. eapply sim_bind; [apply (sim_msgKey TT)|]. intros mk. apply sim_ret. intros w [_ H]. exact H.
Qed.
Lemma hasKey_out sk i b w : hasKey sk i w -> hasKey sk i (step_op w (OOutput b)).
Proof. intros H. exact H. Qed.
Lemma sim_encrypt a r : sim TT (encryptG C world memKS a r) (encryptG C dbw dbKS a r) T1.
Proof.
  unfold encryptG. eapply sim_bind; [apply sim_encState|]. intros [nym ss]. step. eapply sim_bind; [apply sim_encKey|]. intros [sk mk]. cbn [fst].
  destruct (MaxContentLength <? _); [apply sim_fail|]. eapply sim_bind; [apply sim_lift|]. intros body. destruct (negb _); [apply sim_fail|].
  eapply sim_bind; [apply sim_out; intros w H; exact H|]. intros ?. eapply sim_bind; [apply sim_delMsgKey|]. intros ?.
  apply sim_pre with TT; [|intros; exact I]. do 5 step. apply sim_ret. intros; exact I.
Qed.
Lemma sim_decUnknown hp i rk h key sk oss nk priv c : key <> [] ->
  sim TT (decUnknownG C world memKS hp i rk h key sk oss nk priv c) (decUnknownG C dbw dbKS hp i rk h key sk oss nk priv c) (fun _ => TT).
Proof.
  intros K. unfold decUnknownG. step. dx; [dx|step]. do 2 step. destruct (match oss with Some _ => _ | None => _ end); [|step].
  step. eapply sim_bind with (Q := fun _ => TT); [destruct (hNext h); [step; apply sim_agreeSender|step]|]. intros ?. step. step.
Qed.
Lemma sim_decKnown hp i rk h key sk oss nk priv c : key <> [] ->
  sim TT (decKnownG C world memKS hp i rk h key sk oss nk priv c) (decKnownG C dbw dbKS hp i rk h key sk oss nk priv c) (fun _ => TT).
Proof.
  intros K. unfold decKnownG. destruct oss as [ss|]; [|apply sim_lift']. eapply sim_bind with (Q := fun _ => TT).
  { destruct (_ && _).
    - destruct (hNext h) as [hn|]; [|step]. destruct (stNextSender ss) as [own|].
      + destruct (isHash _ _); [|step]. step. dx. repeat step.
      + step. dx. do 3 step. dx; repeat step.
    - destruct (stNextSender ss); [|step]. destruct (_ && _); repeat step. }
  intros ss1. repeat step.
Qed.
Lemma sim_decKey i rk h sk oss nk : sim TT (decKeyG C world memKS i rk h sk oss nk) (decKeyG C dbw dbKS i rk h sk oss nk) (fun _ w => hasKey sk (hMsgCount h) w).
Proof.
  unfold decKeyG. step. eapply sim_bind with (Q := fun _ => TT).
  { destruct (_ <=? _); [|step]. step. destruct (_ <? _); [apply sim_fail|]. destruct oss as [ss|]; [|apply sim_lift'].
    eapply sim_bind with (Q := fun _ => TT).
    { destruct (beq _ _); [apply sim_lift'|]. step. dx; [dx; apply sim_lift'|]. step. dx. apply sim_lift'. }
    intros rp. step. apply sim_generate. }
  intros ?. eapply sim_weak; [apply (sim_msgKey TT)|]. intros x w [_ H]. exact H.
Qed.
Lemma sim_decState a hp i h : sim TT (decStateG C world memKS a hp i h) (decStateG C dbw dbKS a hp i h) (fun _ => TT).
Proof.
  unfold decStateG. do 5 step. eapply sim_bind with (Q := fun _ => TT).
  { dx; [apply sim_decKnown, key_ne|apply sim_decUnknown, key_ne]. }
  intros oss. step.
Qed.
Lemma sim_receive a m : sim TT (receiveG C world memKS a m) (receiveG C dbw dbKS a m) T1.
Proof.
  unfold receiveG. destruct (b64dec m) as [raw|]; [|apply sim_fail]. step. dx. dx. destruct (negb _); [apply sim_fail|].
  unfold decryptG. step. dx. dx. dx. eapply sim_bind; [apply sim_decState|]. intros [[rk sk] oss].
  eapply sim_bind; [apply sim_decKey|]. intros mk. eapply sim_bind; [apply sim_lift|]. intros [[[o2 o3] ih] s2].
  eapply sim_bind; [apply sim_out; intros w H; exact H|]. intros ?. eapply sim_bind; [apply sim_lift|]. intros sig.
  eapply sim_bind; [apply sim_delMsgKey|]. intros ?. apply sim_ret. intros; exact I.
Qed.
End Sim.
