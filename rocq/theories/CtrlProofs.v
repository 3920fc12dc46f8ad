(* Proofs about ctrlengine: the sending side. *)
From Verif Require Import Base Base64Model CodecModel IdentityModel IdentityProofs SqlModel SqlProofs Maps
  MsgDBModel MsgDBProofs MsgDBQueue MsgDBView MsgDBSpec MsgDBSteps CryptoModel MixModel MixClientModel CtrlModel.
From Coq Require Import Sorting.Sorted.
Local Open Scope N_scope.

Lemma tget_tupd {A} id p (f : A -> A) (t : tbl A) : tget id (tupd p f t) = match tget id t with Some a => Some (if p id a then f a else a) | None => None end.
Proof.
  unfold tget. assert (X : tmin (fun i _ => i =? id) (tupd p f t) = match tmin (fun i _ => i =? id) t with Some (j, a) => Some (j, if p j a then f a else a) | None => None end).
  { induction t as [|[j a] t IH]; [reflexivity|]. unfold tupd. cbn [map]. fold (tupd p f t). cbn [fst snd].
    assert (Y : (if p j a then (j, f a) else (j, a)) = (j, if p j a then f a else a)) by (destruct (p j a); reflexivity). rewrite Y. clear Y.
    cbn [tmin fst snd]. rewrite IH. destruct (tmin (fun i _ => i =? id) t) as [[k c]|]; cbn [fst snd]; destruct (j =? id); try reflexivity; destruct (k <? j); reflexivity. }
  rewrite X. destruct (tmin (fun i _ => i =? id) t) as [[j a]|] eqn:E; [|reflexivity].
  apply tmin_some in E as [_ E]. cbn [fst] in E. apply N.eqb_eq in E. subst j. reflexivity.
Qed.

Section Send.
  Variable U : Unicode.

  (* the message with number i, known as m0 when it was submitted, with the messages L handed over so far *)
  Definition kept (i : N) (m0 : msgRow) (L : list N) (db : msgdb) : Prop :=
    history U db /\ exists m, In (i, m) (dbMsgs db) /\ sameMsg m0 m /\ (mSent m = true -> In i L).
  Lemma sameMsg_trans a b c : sameMsg a b -> sameMsg b c -> sameMsg a c.
  Proof. unfold sameMsg. intros (A1&A2&A3&A4&A5&A6&A7&A8&A9&A10) (B1&B2&B3&B4&B5&B6&B7&B8&B9&B10). repeat split; congruence. Qed.
  Definition noDel (i : N) (o : dop) : Prop := match o with DDelMessage _ j => j <> i | DDelNym _ => False | _ => True end.
  Lemma history_dexec db o db' : history U db -> permitted U db o -> dexec U o db = Ok db' -> history U db'.
  Proof. intros H P E. pose proof (h_step U db o H P) as S. unfold dstep in S. rewrite E in S. exact S. Qed.
  Lemma kept_op i m0 L L' db o db' : kept i m0 L db -> permitted U db o -> noDel i o -> dexec U o db = Ok db' ->
    incl L L' -> (deliveredBy db i o -> In i L') -> kept i m0 L' db'.
  Proof.
    intros (H & m & I & S & K) P ND E IL D. split; [eapply history_dexec; eassumption|].
    destruct (msg_step U o db db' i m E I) as [[my [_ [->| ->]]]|[m' [I' [S' [_ K']]]]].
    - elim ND. reflexivity.
    - contradiction.
    - exists m'. split; [exact I'|]. split; [eapply sameMsg_trans; eassumption|]. intros X. destruct (K' X) as [Y|Y]; [apply IL, K, Y|apply D, Y].
  Qed.
  Lemma setOut_msgID db idx env db1 : dexec U (DSetOutQueue idx env) db = Ok db1 ->
    forall j e, tget j (dbOut db1) = Some e -> exists o, tget j (dbOut db) = Some o /\ oMsgID o = oMsgID e /\ oSelf o = oSelf e.
  Proof.
    intros E j e T. cbn [dexec] in E. unfold setOutQueue in E. apply Ok_eq in E. subst db1. cbn [withOut dbOut] in T. rewrite tget_tupd in T.
    destruct (tget j (dbOut db)) as [o|]; [|discriminate]. exists o. split; [reflexivity|].
    assert (e = (if j =? idx then mkOq (oSelf o) (oMsgID o) env (oNym o) (oMin o) (oMax o) true (oResend o) else o)) as -> by (injection T; auto).
    destruct (j =? idx); split; reflexivity.
  Qed.
  Lemma kept_procOut i m0 my evs : forall L db h db' d, kept i m0 L db -> procOut U my evs db = (h, db', d) -> kept i m0 (L ++ h) db'.
  Proof.
    induction evs as [|ev evs IH]; intros L db h db' d K R; cbn [procOut] in R.
    - destruct (getOutQueue U my db) as [[[[[[[x1 x2] x3] x4] x5] x6]|]| |]; try destruct (isNil _);
        assert (h = []) as -> by (injection R; auto); assert (db' = db) as -> by (injection R; auto); rewrite app_nil_r; exact K.
    - assert (Stop : forall b, ([] : list N, db, b) = (h, db', d) -> kept i m0 (L ++ h) db').
      { intros b X. assert (h = []) as -> by (injection X; auto). assert (db' = db) as -> by (injection X; auto). rewrite app_nil_r. exact K. }
      destruct (getOutQueue U my db) as [[[[[[[idx msg] nym] minD] maxD] en]|]| |]; [|exact (Stop _ R)|exact (Stop _ R)|exact (Stop _ R)].
      destruct (isNil msg); [exact (Stop _ R)|]. destruct ev as [|env now taken rep]; [exact (Stop _ R)|].
      assert (K1 : forall db1, (if en then Ok db else dexec U (DSetOutQueue idx env) db) = Ok db1 -> kept i m0 L db1 /\
        forall j e, tget j (dbOut db1) = Some e -> exists o, tget j (dbOut db) = Some o /\ oMsgID o = oMsgID e).
      { intros db1 E. destruct en.
        - apply Ok_eq in E. subst db1. split; [exact K|]. eauto.
        - split; [apply (kept_op i m0 L L db (DSetOutQueue idx env)); [exact K|exact I|exact I|exact E|apply incl_refl|]|].
          + intros (a & b & c & Z & _). discriminate Z.
          + intros j e T. destruct (setOut_msgID _ _ _ _ E _ _ T) as (o & T1 & T2 & _). eauto. }
      destruct (if en then Ok db else dexec U (DSetOutQueue idx env) db) as [db1| |]; [|exact (Stop _ R)|exact (Stop _ R)].
      destruct (K1 db1 eq_refl) as [K2 ID]. clear K1.
      set (hd := if match rep with ROk => true | _ => taken end then match tget idx (dbOut db) with Some o => [oMsgID o] | None => [] end else []) in R.
      assert (K3 : kept i m0 (L ++ hd) db1).
      { destruct K2 as (Hh & m & I1 & I2 & I3). split; [exact Hh|]. exists m. split; [exact I1|]. split; [exact I2|]. intros X. apply in_or_app. left. exact (I3 X). }
      assert (Stop2 : forall b, (hd, db1, b) = (h, db', d) -> kept i m0 (L ++ h) db').
      { intros b X. assert (h = hd) as -> by (injection X; auto). assert (db' = db1) as -> by (injection X; auto). exact K3. }
      assert (Go : forall o, (deliveredBy db1 i o -> In i hd) -> permitted U db1 o -> noDel i o ->
        match dexec U o db1 with Ok db2 => let '(h, db', d) := procOut U my evs db2 in (hd ++ h, db', d) | _ => (hd, db1, false) end = (h, db', d) ->
        kept i m0 (L ++ h) db').
      { intros o D P ND X. destruct (dexec U o db1) as [db2| |] eqn:E; [|exact (Stop2 _ X)|exact (Stop2 _ X)].
        destruct (procOut U my evs db2) as [[h2 db2'] d2] eqn:R2. assert (h = hd ++ h2) as -> by (injection X; auto). assert (db' = db2') as -> by (injection X; auto).
        rewrite app_assoc. eapply IH; [|exact R2]. apply (kept_op i m0 L (L ++ hd) db1 o); [exact K2|exact P|exact ND|exact E|apply incl_appl, incl_refl|].
        intros Y. apply in_or_app. right. exact (D Y). }
      destruct rep.
      + apply (Go _) in R; [exact R| |exact I|exact I]. intros (a & b & e & Z & T & Me). assert (a = idx) as -> by (injection Z; auto).
        destruct (ID _ _ T) as (o & T1 & T2). unfold hd. rewrite T1. left. congruence.
      + apply (Go _) in R; [exact R| |exact I|exact I]. intros (a & b & e & Z & _). discriminate Z.
      + apply (Go _) in R; [exact R| |exact I|exact I]. intros (a & b & e & Z & _). discriminate Z.
      + exact (Stop2 _ R).
  Qed.
  Lemma kept_encLoop i m0 my evs : forall L db db' d, kept i m0 L db -> encLoop U my evs db = (db', d) -> kept i m0 L db'.
  Proof.
    induction evs as [|ev evs IH]; intros L db db' d K R; cbn [encLoop] in R.
    - destruct (getUndelivered U my db) as [[[[[[[x1 x2] x3] x4] x5] x6]|]| |]; try destruct (isNil _);
        assert (db' = db) as -> by (injection R; auto); exact K.
    - assert (Stop : forall b, (db, b) = (db', d) -> kept i m0 L db').
      { intros b X. assert (db' = db) as -> by (injection X; auto). exact K. }
      destruct (getUndelivered U my db) as [[[[[[[j c] t] s] a] b]|]| |] eqn:G; [|exact (Stop _ R)|exact (Stop _ R)|exact (Stop _ R)].
      destruct (isNil c); [exact (Stop _ R)|]. destruct ev as [[enc nym]|]; [|exact (Stop _ R)].
      destruct (dexec U (DAddOutQueue my j enc nym a b) db) as [db1| |] eqn:E; [|exact (Stop _ R)|exact (Stop _ R)].
      eapply IH; [|exact R]. apply (kept_op i m0 L L db (DAddOutQueue my j enc nym a b)); [exact K| |exact I|exact E|apply incl_refl|].
      + cbn [permitted]. eauto 8.
      + intros (x & y & z & Z & _). discriminate Z.
  Qed.
  Lemma kept_msgSend i m0 my e L db h db' d : kept i m0 L db -> msgSend U my e db = (h, db', d) -> kept i m0 (L ++ h) db'.
  Proof.
    intros K R. unfold msgSend in R.
    destruct (dexec U (DClearResend my) db) as [db1| |] eqn:E.
    2,3: assert (h = []) as -> by (injection R; auto); assert (db' = db) as -> by (injection R; auto); rewrite app_nil_r; exact K.
    assert (K1 : kept i m0 L db1).
    { apply (kept_op i m0 L L db (DClearResend my)); [exact K|exact I|exact I|exact E|apply incl_refl|]. intros (x & y & z & Z & _). discriminate Z. }
    destruct (procOut U my (seOld e) db1) as [[h1 db2] d1] eqn:R1. pose proof (kept_procOut _ _ _ _ _ _ _ _ _ K1 R1) as K2.
    destruct d1; cbn [negb] in R.
    2:{ assert (h = h1) as -> by (injection R; auto). assert (db' = db2) as -> by (injection R; auto). exact K2. }
    destruct (encLoop U my (seEnc e) db2) as [db3 d2] eqn:R2. pose proof (kept_encLoop _ _ _ _ _ _ _ _ K2 R2) as K3.
    destruct d2; cbn [negb] in R.
    2:{ assert (h = h1) as -> by (injection R; auto). assert (db' = db3) as -> by (injection R; auto). exact K3. }
    destruct (procOut U my (seNew e) db3) as [[h2 db4] d3] eqn:R3. pose proof (kept_procOut _ _ _ _ _ _ _ _ _ K3 R3) as K4.
    assert (h = h1 ++ h2) as -> by (injection R; auto). assert (db' = db4) as -> by (injection R; auto). rewrite app_assoc. exact K4.
  Qed.

  (* ---------------- everything goes out when nothing fails ---------------- *)
  Definition own (u : N) (r : N * oqRow) : bool := oSelf (snd r) =? u.
  Definition waits (u : N) (r : N * msgRow) : bool := (mSelf (snd r) =? u) && mToSend (snd r).
  (* the part of the state of one user that matters *)
  Record ready (my : bytes) (u : N) (db : msgdb) : Prop := mkReady {
    rd_hist : history U db; rd_map : mapped U my = true; rd_uid : qNymUID my db = Ok u;
    rd_full : forall i o, In (i, o) (dbOut db) -> oSelf o = u -> oMsg o <> [] /\ oResend o = false }.
  Definition goodO (e : oev) : Prop := exists env now, e = OGo env now true ROk /\ env <> [].
  Definition goodE (e : option (bytes * bytes)) : Prop := exists enc nym, e = Some (enc, nym) /\ enc <> [].
  Lemma isNil_ne (l : bytes) : l <> [] -> isNil l = false. Proof. destruct l; [contradiction|reflexivity]. Qed.
  Lemma qNymUID_nyms my db db' : dbNyms db' = dbNyms db -> qNymUID my db' = qNymUID my db.
  Proof. unfold qNymUID. intros ->. reflexivity. Qed.
  Lemma len_filter_lt {A} (p q : A -> bool) l x : (forall y, p y = true -> q y = true) -> In x l -> q x = true -> p x = false ->
    (length (filter p l) < length (filter q l))%nat.
  Proof.
    intros S. induction l as [|y l IH]; [intros []|]. intros [->|I] Q P.
    - cbn [filter]. rewrite Q, P. cbn [length]. apply le_n_S. clear -S. induction l as [|y l IH]; [cbn; lia|]. cbn [filter].
      destruct (p y) eqn:Py; [rewrite (S _ Py); cbn [length]; lia|]. destruct (q y); cbn [length]; lia.
    - specialize (IH I Q P). cbn [filter]. destruct (p y) eqn:Py; [rewrite (S _ Py); cbn [length]; lia|]. destruct (q y); cbn [length]; lia.
  Qed.
  Lemma filter_map_same {A} (p : A -> bool) (f : A -> A) l : (forall x, p (f x) = p x) -> length (filter p (map f l)) = length (filter p l).
  Proof. intros S. induction l as [|x l IH]; [reflexivity|]. cbn [map filter]. rewrite S. destruct (p x); cbn [length]; rewrite IH; reflexivity. Qed.

  (* one successful delivery *)
  Lemma procOut_good_step my u db i o env now : ready my u db -> tmin (fun _ o => (oSelf o =? u) && negb (oResend o)) (dbOut db) = Some (i, o) -> env <> [] ->
    exists db1 db2, (if oEnv o then Ok db else dexec U (DSetOutQueue i env) db) = Ok db1 /\ dexec U (DRemoveOutQueue i now) db1 = Ok db2 /\
      ready my u db2 /\ (length (filter (own u) (dbOut db2)) < length (filter (own u) (dbOut db)))%nat /\
      (filter (waits u) (dbMsgs db) = [] -> filter (waits u) (dbMsgs db2) = []) /\ length (filter (waits u) (dbMsgs db2)) = length (filter (waits u) (dbMsgs db)).
  Proof.
    intros R T NE. destruct (tmin_some _ _ _ T) as [I P]. cbn [fst snd] in P. apply andb_prop in P as [P _]. apply N.eqb_eq in P.
    pose proof (history_Inv U _ (rd_hist _ _ _ R)) as V. pose proof (iv_out _ _ V) as [IO _].
    set (db1 := if oEnv o then db else withOut (tupd (fun j _ => j =? i) (fun o => mkOq (oSelf o) (oMsgID o) env (oNym o) (oMin o) (oMax o) true (oResend o)) (dbOut db)) db).
    assert (E1 : (if oEnv o then Ok db else dexec U (DSetOutQueue i env) db) = Ok db1) by (unfold db1; destruct (oEnv o); reflexivity).
    assert (H1 : history U db1).
    { destruct (oEnv o) eqn:EO; [assert (db1 = db) as -> by congruence; apply R|]. eapply history_dexec; [apply R| |exact E1]. exact Logic.I. }
    assert (Tg : exists o1, tget i (dbOut db1) = Some o1).
    { unfold db1. destruct (oEnv o); [exists o; apply tget_intro; assumption|]. cbn [withOut dbOut]. rewrite tget_tupd, (tget_intro _ _ _ IO I). eauto. }
    destruct Tg as [o1 Tg].
    set (db2 := withOut (tdel (fun j _ => j =? i) (dbOut db1)) (withMsgs (tupd (fun j _ => j =? oMsgID o1) (setSent now) (dbMsgs db1)) db1)).
    assert (E2 : dexec U (DRemoveOutQueue i now) db1 = Ok db2) by (cbn [dexec]; unfold removeOutQueue; rewrite Tg; reflexivity).
    assert (N1 : dbNyms db1 = dbNyms db) by (unfold db1; destruct (oEnv o); reflexivity).
    assert (M1 : dbMsgs db1 = dbMsgs db) by (unfold db1; destruct (oEnv o); reflexivity).
    exists db1, db2. split; [exact E1|]. split; [exact E2|].
    assert (X : forall j a, In (j, a) (dbOut db1) -> exists a0, In (j, a0) (dbOut db) /\ oSelf a0 = oSelf a /\ oResend a0 = oResend a /\ (oMsg a = oMsg a0 \/ oMsg a = env)).
    { intros j a J. unfold db1 in J. destruct (oEnv o); [exists a; auto|]. cbn [withOut dbOut] in J. apply In_tupd in J as [[j0 a0] [J E]]. cbn [fst snd] in E.
      destruct (j0 =? i); injection E as -> ->; exists a0; cbn [oSelf oResend oMsg]; auto. }
    split; [constructor|split; [|split]].
    - exact (history_dexec db1 (DRemoveOutQueue i now) db2 H1 Logic.I E2).
    - apply R.
    - rewrite <- (rd_uid _ _ _ R). apply qNymUID_nyms. cbn [db2 withOut withMsgs dbNyms]. exact N1.
    - intros j a J Sa. cbn [db2 withOut withMsgs dbOut] in J. apply In_tdel in J as [J _]. destruct (X _ _ J) as (a0 & J0 & S0 & R0 & M0).
      destruct (rd_full _ _ _ R j a0 J0) as [F1 F2]; [congruence|]. split; [|congruence]. destruct M0 as [-> | ->]; assumption.
    - cbn [db2 withOut withMsgs dbOut].
      assert (L1 : length (filter (own u) (dbOut db1)) = length (filter (own u) (dbOut db))).
      { unfold db1. destruct (oEnv o); [reflexivity|]. cbn [withOut dbOut]. unfold tupd. apply filter_map_same. intros [j a]. cbn [fst snd]. destruct (j =? i); reflexivity. }
      rewrite <- L1. unfold tdel. rewrite filter_filter. apply (len_filter_lt _ _ _ (i, o1)).
      + intros [j a]. cbn [fst snd]. intros Z. apply andb_prop in Z as [_ Z]. exact Z.
      + apply tget_In. exact Tg.
      + unfold own. cbn [snd]. apply tget_In in Tg. destruct (X _ _ Tg) as (a0 & J0 & S0 & _). apply N.eqb_eq. rewrite <- S0. replace a0 with o; [exact P|]. eapply idsOk_unique; eassumption.
      + cbn [fst snd]. rewrite N.eqb_refl. reflexivity.
    - intros Z. cbn [db2 withOut withMsgs dbMsgs]. rewrite M1. apply length_zero_iff_nil. rewrite <- (proj2 (length_zero_iff_nil _) Z). unfold tupd. apply filter_map_same. intros [j a]. cbn [fst snd]. destruct (j =? oMsgID o1); reflexivity.
    - cbn [db2 withOut withMsgs dbMsgs]. rewrite M1. unfold tupd. apply filter_map_same. intros [j a]. cbn [fst snd]. destruct (j =? oMsgID o1); reflexivity.
  Qed.
  Lemma procOut_good my u : forall evs db, ready my u db -> Forall goodO evs -> (length (filter (own u) (dbOut db)) <= length evs)%nat ->
    exists h db', procOut U my evs db = (h, db', true) /\ ready my u db' /\ filter (own u) (dbOut db') = [] /\
      length (filter (waits u) (dbMsgs db')) = length (filter (waits u) (dbMsgs db)).
  Proof.
    induction evs as [|ev evs IH]; intros db R G L.
    - assert (Z : filter (own u) (dbOut db) = []) by (apply length_zero_iff_nil; cbn [length] in L; lia).
      assert (T : tmin (fun _ o => (oSelf o =? u) && negb (oResend o)) (dbOut db) = None).
      { apply tmin_none_intro. intros s I. destruct (oSelf (snd s) =? u) eqn:E; [|reflexivity]. assert (J : In s (filter (own u) (dbOut db))) by (apply filter_In; split; [exact I|exact E]).
        rewrite Z in J. destruct J. }
      exists [], db. cbn [procOut]. unfold getOutQueue. rewrite (rd_map _ _ _ R), (rd_uid _ _ _ R). cbn [need rbind]. rewrite T. auto.
    - cbn [procOut]. unfold getOutQueue at 1. rewrite (rd_map _ _ _ R), (rd_uid _ _ _ R). cbn [need rbind].
      destruct (tmin (fun _ o => (oSelf o =? u) && negb (oResend o)) (dbOut db)) as [[i o]|] eqn:T.
      + inversion_clear G as [|? ? (env & now & -> & NE) G']. destruct (procOut_good_step my u db i o env (now + oMin o)%Z R T NE) as (db1 & db2 & E1 & E2 & R2 & L2 & _ & W2).
        pose proof (tmin_some _ _ _ T) as [I P]. cbn [fst snd] in P. apply andb_prop in P as [P _]. apply N.eqb_eq in P.
        rewrite (isNil_ne _ (proj1 (rd_full _ _ _ R _ _ I P))). rewrite E1, E2.
        destruct (IH db2 R2 G') as (h & db' & E & R' & O & W); [cbn [length] in L; lia|]. rewrite E. eexists _, db'. split; [reflexivity|]. split; [exact R'|]. split; [exact O|congruence].
      + exists [], db. split; [reflexivity|]. split; [exact R|]. split; [|reflexivity].
        destruct (filter (own u) (dbOut db)) as [|[i o] l] eqn:F; [reflexivity|]. assert (J : In (i, o) (filter (own u) (dbOut db))) by (rewrite F; now left).
        apply filter_In in J as [J Q]. unfold own in Q. cbn [snd] in Q. pose proof (tmin_none _ _ T _ J) as X. cbn [fst snd] in X. rewrite Q in X.
        apply N.eqb_eq in Q. destruct (rd_full _ _ _ R i o J Q) as [_ Y]. rewrite Y in X. discriminate.
  Qed.

  Lemma mapped_ne c : mapped U c = true -> c <> [].
  Proof. intros H ->. unfold mapped, isMapped in H. cbn in H. discriminate. Qed.
  Lemma encLoop_good my u : forall evs db, ready my u db -> Forall goodE evs -> (length (filter (waits u) (dbMsgs db)) <= length evs)%nat ->
    exists db', encLoop U my evs db = (db', true) /\ ready my u db' /\ filter (waits u) (dbMsgs db') = [] /\
      (length (filter (own u) (dbOut db')) <= length (filter (own u) (dbOut db)) + length (filter (waits u) (dbMsgs db)))%nat.
  Proof.
    induction evs as [|ev evs IH]; intros db R G L.
    - assert (Z : filter (waits u) (dbMsgs db) = []) by (apply length_zero_iff_nil; cbn [length] in L; lia).
      assert (T : tmin (fun _ m => (mSelf m =? u) && mToSend m) (dbMsgs db) = None).
      { apply tmin_none_intro. intros s I. destruct ((mSelf (snd s) =? u) && mToSend (snd s)) eqn:E; [|reflexivity]. assert (J : In s (filter (waits u) (dbMsgs db))) by (apply filter_In; split; [exact I|exact E]).
        rewrite Z in J. destruct J. }
      exists db. cbn [encLoop]. unfold getUndelivered. rewrite (rd_map _ _ _ R), (rd_uid _ _ _ R). cbn [need rbind]. rewrite T. split; [reflexivity|]. split; [exact R|]. split; [exact Z|lia].
    - cbn [encLoop]. destruct (getUndelivered U my db) as [[[[[[[i c] t] s] a] b]|]| |] eqn:GU.
      + pose proof GU as GU'. unfold getUndelivered in GU. rewrite (rd_map _ _ _ R), (rd_uid _ _ _ R) in GU. cbn [need rbind] in GU.
        destruct (tmin (fun _ m => (mSelf m =? u) && mToSend m) (dbMsgs db)) as [[i0 m]|] eqn:T; [|discriminate].
        destruct (tmin_some _ _ _ T) as [I P]. cbn [fst snd] in P. apply andb_prop in P as [P1 P2].
        unfold qContactMapped in GU. destruct (tmin (fun j c => (cMy c =? u) && (j =? mPeer m)) (dbContacts db)) as [[k r]|] eqn:TC; [|discriminate]. cbn [rbind] in GU.
        assert (i0 = i /\ cMapped r = c /\ mMin m = a /\ mMax m = b) as (-> & Ec & <- & <-) by (injection GU; auto).
        destruct (tmin_some _ _ _ TC) as [IC _]. pose proof (history_Inv U _ (rd_hist _ _ _ R)) as V. destruct (iv_contacts _ _ V) as (_ & FC & _). rewrite Forall_forall in FC.
        destruct (FC _ IC) as (_ & MC & _). cbn [snd] in MC. rewrite Ec in MC. rewrite (isNil_ne _ (mapped_ne _ MC)).
        inversion_clear G as [|? ? (enc & nym & -> & NE) G'].
        set (db1 := withOut (tins (mkOq u i enc nym (mMin m) (mMax m) false false) (dbOut db)) (withMsgs (tupd (fun j _ => j =? i) (setToSend false) (dbMsgs db)) db)).
        assert (E1 : dexec U (DAddOutQueue my i enc nym (mMin m) (mMax m)) db = Ok db1).
        { cbn [dexec]. unfold addOutQueue. rewrite (rd_map _ _ _ R), (rd_uid _ _ _ R). cbn [need rbind].
          assert (TH : thas (fun j _ => j =? i) (dbMsgs db) = true) by (apply thas_true; exists (i, m); split; [exact I|apply N.eqb_refl]). rewrite TH. reflexivity. }
        rewrite E1.
        assert (R1 : ready my u db1).
        { constructor.
          - eapply history_dexec; [apply R| |exact E1]. cbn [permitted]. eauto 8.
          - apply R.
          - rewrite <- (rd_uid _ _ _ R). apply qNymUID_nyms. reflexivity.
          - intros j o J S. cbn [db1 withOut withMsgs dbOut] in J. apply In_tins in J as [J|J]; [apply (rd_full _ _ _ R _ _ J S)|]. injection J as -> ->. split; [exact NE|reflexivity]. }
        assert (W1 : (length (filter (waits u) (dbMsgs db1)) < length (filter (waits u) (dbMsgs db)))%nat).
        { cbn [db1 withOut withMsgs dbMsgs]. unfold tupd.
          assert (Q : forall l : tbl msgRow, length (filter (waits u) (map (fun r => if fst r =? i then (fst r, setToSend false (snd r)) else r) l)) = length (filter (fun r => waits u r && negb (fst r =? i)) l)).
          { intros lm. induction lm as [|[j x] lm IHl]; [reflexivity|]. cbn [map filter fst snd]. destruct (j =? i); cbn [negb].
            - unfold waits at 1. cbn [snd setToSend mToSend]. rewrite !andb_false_r. exact IHl.
            - rewrite andb_true_r. destruct (waits u (j, x)); cbn [length]; rewrite IHl; reflexivity. }
          rewrite Q. apply (len_filter_lt _ _ _ (i, m)); [|exact I| |].
          - intros y Z. apply andb_prop in Z as [Z _]. exact Z.
          - unfold waits. cbn [snd]. rewrite P1, P2. reflexivity.
          - cbn [fst]. rewrite N.eqb_refl. apply andb_false_r. }
        assert (O1 : length (filter (own u) (dbOut db1)) = Datatypes.S (length (filter (own u) (dbOut db)))).
        { cbn [db1 withOut withMsgs dbOut]. unfold tins. rewrite filter_app, app_length. cbn [filter own snd oSelf]. unfold own at 2. cbn [snd oSelf]. rewrite N.eqb_refl. cbn [length]. lia. }
        destruct (IH db1 R1 G') as (db' & E & R' & Z & O); [cbn [length] in L; lia|]. exists db'. split; [exact E|]. split; [exact R'|]. split; [exact Z|]. lia.
      + exists db. split; [reflexivity|]. split; [exact R|]. split; [|lia].
        unfold getUndelivered in GU. rewrite (rd_map _ _ _ R), (rd_uid _ _ _ R) in GU. cbn [need rbind] in GU.
        destruct (tmin (fun _ m => (mSelf m =? u) && mToSend m) (dbMsgs db)) as [[i0 m]|] eqn:T; [destruct (qContactMapped u (mPeer m) db); discriminate|].
        destruct (filter (waits u) (dbMsgs db)) as [|x l] eqn:F; [reflexivity|]. assert (J : In x (filter (waits u) (dbMsgs db))) by (rewrite F; now left).
        apply filter_In in J as [J Q]. pose proof (tmin_none _ _ T _ J) as X. unfold waits in Q. congruence.
      + exfalso. unfold getUndelivered in GU. rewrite (rd_map _ _ _ R), (rd_uid _ _ _ R) in GU. cbn [need rbind] in GU.
        destruct (tmin (fun _ m => (mSelf m =? u) && mToSend m) (dbMsgs db)) as [[i0 m]|] eqn:T; [|discriminate]. destruct (tmin_some _ _ _ T) as [I P]. cbn [fst snd] in P. apply andb_prop in P as [P1 P2]. apply N.eqb_eq in P1.
        pose proof (history_Inv U _ (rd_hist _ _ _ R)) as V. destruct (iv_msgs _ _ V) as (_ & FM). rewrite Forall_forall in FM. destruct (FM _ I) as [_ CM]. cbn [snd] in CM. unfold ckeys in CM. apply in_map_iff in CM as [[k r] [Q J]]. cbn [fst snd] in Q.
        assert (k = mPeer m /\ cMy r = u) as [-> CY] by (split; congruence).
        unfold qContactMapped in GU. destruct (tmin (fun j c => (cMy c =? u) && (j =? mPeer m)) (dbContacts db)) as [[k' r']|] eqn:TC; [discriminate|].
        pose proof (tmin_none _ _ TC _ J) as X. cbn [fst snd] in X. rewrite CY, !N.eqb_refl in X. discriminate.
      + exfalso. unfold getUndelivered in GU. rewrite (rd_map _ _ _ R), (rd_uid _ _ _ R) in GU. cbn [need rbind] in GU.
        destruct (tmin (fun _ m => (mSelf m =? u) && mToSend m) (dbMsgs db)) as [[i0 m]|] eqn:T; [|discriminate]. unfold qContactMapped in GU. destruct (tmin _ (dbContacts db)) as [[k' r']|]; discriminate.
  Qed.

  (* ---------------- a property of log and database kept by sending ---------------- *)
  Definition quiet (o : dop) : Prop :=
    match o with
    | DSetOutQueue _ e => e <> [] | DAddOutQueue _ _ e _ _ _ => e <> []
    | DRetractOutQueue _ | DSetResend _ | DClearResend _ => True
    | _ => False
    end.
  (* events of uninterrupted runs: the mix took the message exactly if this is reported *)
  Definition evOk (clean : bool) (e : oev) : Prop :=
    match e with OStop => True | OGo env _ taken rep => env <> [] /\ (clean = true -> rep <> ROk -> taken = false) end.
  Definition encOk (e : option (bytes * bytes)) : Prop := match e with Some (enc, _) => enc <> [] | None => True end.
  Variable Pr : list N -> msgdb -> Prop.
  Variable clean : bool.
  Hypothesis Phist : forall L db, Pr L db -> history U db.
  Hypothesis Pop : forall L db o db', Pr L db -> quiet o -> permitted U db o -> dexec U o db = Ok db' -> Pr L db'.
  Hypothesis Pok : forall L db i t o db', Pr L db -> tget i (dbOut db) = Some o -> dexec U (DRemoveOutQueue i t) db = Ok db' -> Pr (L ++ [oMsgID o]) db'.
  Hypothesis Pdup : clean = false -> forall L db i o, Pr L db -> tget i (dbOut db) = Some o -> Pr (L ++ [oMsgID o]) db.
  Lemma procOut_pres my evs : forall L db h db' d, Pr L db -> Forall (evOk clean) evs -> procOut U my evs db = (h, db', d) -> Pr (L ++ h) db'.
  Proof using Phist Pop Pok Pdup.
    induction evs as [|ev evs IH]; intros L db h db' d K F R; cbn [procOut] in R.
    - destruct (getOutQueue U my db) as [[[[[[[x1 x2] x3] x4] x5] x6]|]| |]; try destruct (isNil _);
        assert (h = []) as -> by (injection R; auto); assert (db' = db) as -> by (injection R; auto); rewrite app_nil_r; exact K.
    - assert (Stop : forall b, ([] : list N, db, b) = (h, db', d) -> Pr (L ++ h) db').
      { intros b X. assert (h = []) as -> by (injection X; auto). assert (db' = db) as -> by (injection X; auto). rewrite app_nil_r. exact K. }
      destruct (getOutQueue U my db) as [[[[[[[idx msg] nym] minD] maxD] en]|]| |] eqn:GQ; [|exact (Stop _ R)|exact (Stop _ R)|exact (Stop _ R)].
      destruct (isNil msg); [exact (Stop _ R)|]. destruct ev as [|env now taken rep]; [exact (Stop _ R)|].
      pose proof (Forall_inv F) as EV; cbn [evOk] in EV; destruct EV as [NE Cl]; pose proof (Forall_inv_tail F) as F'.
      assert (T : exists o, tget idx (dbOut db) = Some o).
      { unfold getOutQueue in GQ. inv1 GQ. inv1 GQ. apply Ok_eq in GQ. destruct (tmin _ (dbOut db)) as [[i o]|] eqn:TM; [|discriminate].
        exists o. apply tget_intro; [apply (iv_out _ _ (history_Inv U _ (Phist _ _ K)))|]. apply tmin_some in TM as [TM _]. assert (i = idx) as <- by congruence. exact TM. }
      destruct T as [o T]. rewrite T in R.
      assert (K1 : forall db1, (if en then Ok db else dexec U (DSetOutQueue idx env) db) = Ok db1 -> Pr L db1 /\ exists o1, tget idx (dbOut db1) = Some o1 /\ oMsgID o1 = oMsgID o).
      { intros db1 E. destruct en; [apply Ok_eq in E; subst db1; eauto|]. split; [apply (Pop L db (DSetOutQueue idx env)); [exact K|exact NE|exact I|exact E]|].
        cbn [dexec] in E. unfold setOutQueue in E. apply Ok_eq in E. subst db1. cbn [withOut dbOut]. rewrite tget_tupd, T, N.eqb_refl. eexists. split; reflexivity. }
      destruct (if en then Ok db else dexec U (DSetOutQueue idx env) db) as [db1| |]; [|exact (Stop _ R)|exact (Stop _ R)].
      destruct (K1 db1 eq_refl) as [K2 (o1 & T1 & ID)]. clear K1.
      assert (Go : forall o2, Pr (L ++ (if match rep with ROk => true | _ => taken end then [oMsgID o] else [])) db1 -> quiet o2 -> permitted U db1 o2 ->
        match dexec U o2 db1 with Ok db2 => let '(h, db', d) := procOut U my evs db2 in ((if match rep with ROk => true | _ => taken end then [oMsgID o] else []) ++ h, db', d)
        | _ => ((if match rep with ROk => true | _ => taken end then [oMsgID o] else []), db1, false) end = (h, db', d) -> Pr (L ++ h) db').
      { intros o2 K3 Q P X. destruct (dexec U o2 db1) as [db2| |] eqn:E2.
        2,3: set (hd := if match rep with ROk => true | _ => taken end then [oMsgID o] else []) in *; assert (h = hd) as -> by (injection X; auto); assert (db' = db1) as -> by (injection X; auto); exact K3.
        destruct (procOut U my evs db2) as [[h2 db2'] d2] eqn:R2. set (hd := if match rep with ROk => true | _ => taken end then [oMsgID o] else []) in *.
        assert (h = hd ++ h2) as -> by (injection X; auto). assert (db' = db2') as -> by (injection X; auto). rewrite app_assoc.
        eapply IH; [|exact F'|exact R2]. exact (Pop _ _ _ _ K3 Q P E2). }
      assert (K3 : rep <> ROk -> Pr (L ++ (if match rep with ROk => true | _ => taken end then [oMsgID o] else [])) db1).
      { intros NR. assert (X : Pr (L ++ (if taken then [oMsgID o] else [])) db1).
        { destruct taken; [|rewrite app_nil_r; exact K2]. destruct clean; [specialize (Cl eq_refl NR); discriminate|]. rewrite <- ID. eapply Pdup; [reflexivity|exact K2|exact T1]. }
        destruct rep; [contradiction|exact X|exact X|exact X]. }
      destruct rep.
      + assert (E2 : exists db2, dexec U (DRemoveOutQueue idx (now + minD)) db1 = Ok db2) by (cbn [dexec]; unfold removeOutQueue; rewrite T1; cbn [fromOpt rbind]; eauto).
        destruct E2 as [db2 E2]. rewrite E2 in R. destruct (procOut U my evs db2) as [[h2 db2'] d2] eqn:R2.
        assert (h = [oMsgID o] ++ h2) as -> by (injection R; auto). assert (db' = db2') as -> by (injection R; auto). rewrite app_assoc.
        eapply IH; [|exact F'|exact R2]. rewrite <- ID. eapply Pok; [exact K2|exact T1|exact E2].
      + exact (Go (DSetResend idx) (K3 ltac:(discriminate)) I I R).
      + exact (Go (DRetractOutQueue idx) (K3 ltac:(discriminate)) I I R).
      + specialize (K3 ltac:(discriminate)). cbv beta iota in K3, R.
        assert (h = if taken then [oMsgID o] else []) as -> by (injection R; auto). assert (db' = db1) as -> by (injection R; auto). exact K3.
  Qed.
  Lemma encLoop_pres my evs : forall L db db' d, Pr L db -> Forall encOk evs -> encLoop U my evs db = (db', d) -> Pr L db'.
  Proof using Pop.
    induction evs as [|ev evs IH]; intros L db db' d K F R; cbn [encLoop] in R.
    - destruct (getUndelivered U my db) as [[[[[[[x1 x2] x3] x4] x5] x6]|]| |]; try destruct (isNil _);
        assert (db' = db) as -> by (injection R; auto); exact K.
    - assert (Stop : forall b, (db, b) = (db', d) -> Pr L db') by (intros b X; assert (db' = db) as -> by (injection X; auto); exact K).
      destruct (getUndelivered U my db) as [[[[[[[j c] t] s] a] b]|]| |] eqn:G; [|exact (Stop _ R)|exact (Stop _ R)|exact (Stop _ R)].
      destruct (isNil c); [exact (Stop _ R)|]. inversion_clear F as [|? ? NE F']. destruct ev as [[enc nym]|]; [|exact (Stop _ R)].
      destruct (dexec U (DAddOutQueue my j enc nym a b) db) as [db1| |] eqn:E; [|exact (Stop _ R)|exact (Stop _ R)].
      eapply IH; [|exact F'|exact R]. apply (Pop L db (DAddOutQueue my j enc nym a b)); [exact K|exact NE| |exact E]. cbn [permitted]. eauto 8.
  Qed.
  Definition evsOk (e : sendEvs) : Prop := Forall (evOk clean) (seOld e) /\ Forall encOk (seEnc e) /\ Forall (evOk clean) (seNew e).
  Lemma msgSend_pres my e L db h db' d : Pr L db -> evsOk e -> msgSend U my e db = (h, db', d) -> Pr (L ++ h) db'.
  Proof using Phist Pop Pok Pdup.
    intros K (F1 & F2 & F3) R. unfold msgSend in R.
    destruct (dexec U (DClearResend my) db) as [db1| |] eqn:E.
    2,3: assert (h = []) as -> by (injection R; auto); assert (db' = db) as -> by (injection R; auto); rewrite app_nil_r; exact K.
    pose proof (Pop L db (DClearResend my) db1 K I I E) as K1.
    destruct (procOut U my (seOld e) db1) as [[h1 db2] d1] eqn:R1. pose proof (procOut_pres _ _ _ _ _ _ _ K1 F1 R1) as K2.
    destruct d1; cbn [negb] in R.
    2:{ assert (h = h1) as -> by (injection R; auto). assert (db' = db2) as -> by (injection R; auto). exact K2. }
    destruct (encLoop U my (seEnc e) db2) as [db3 d2] eqn:R2. pose proof (encLoop_pres _ _ _ _ _ _ K2 F2 R2) as K3.
    destruct d2; cbn [negb] in R.
    2:{ assert (h = h1) as -> by (injection R; auto). assert (db' = db3) as -> by (injection R; auto). exact K3. }
    destruct (procOut U my (seNew e) db3) as [[h2 db4] d3] eqn:R3. pose proof (procOut_pres _ _ _ _ _ _ _ K3 F3 R3) as K4.
    assert (h = h1 ++ h2) as -> by (injection R; auto). assert (db' = db4) as -> by (injection R; auto). rewrite app_assoc. exact K4.
  Qed.
End Send.
