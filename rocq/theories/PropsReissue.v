(* Reissuing and requesting tokens, the token targets: C60, C64, C85, C86. *)
From Verif Require Import Base Base64Model Base64Proofs Asn1Model Asn1Proofs Maps SqlModel SqlProofs MsgDBProofs MsgDBSteps WalletModel WalletProofs PropsWallet.
Local Open Scope N_scope.

(* ---------------- C60 ---------------- *)
(* the wallet has a row with this hash and token *)
Definition hasTok (h tok : bytes) (db : wdb) : Prop := exists i r, In (i, r) (wTok db) /\ wHash r = hexenc h /\ wToken r = b64enc tok.
(* the wallet gives out the token [tok] under the hash [h] *)
Definition readable (h tok : bytes) (db : wdb) : Prop := exists t, getToken h (-1) db = Ok t /\ tToken t = tok.
Definition exCrash : run := reissueToken (repeat 3 32) exOwner 100 exEnv exStore.
Definition okB {A} (m : res A) : bool := match m with Ok _ => true | _ => false end.
Definition lostIn (h h' : bytes) (d : wdb) : bool := negb (okB (getToken h (-1) d)) && negb (okB (getToken h' (-1) d)).
Lemma lostIn_spec h h' d : lostIn h h' d = true -> forall tok tok', ~ readable h tok d /\ ~ readable h' tok' d.
Proof.
  unfold lostIn. rewrite andb_true_iff, !negb_true_iff. intros [A B] tok tok'. split; intros (t & E & _); [rewrite E in A|rewrite E in B]; discriminate.
Qed.
(* A crash after the old token was deleted: neither the old nor the new token is in the wallet. *)
Theorem C60_refuted : exists db h owner now e tr h' d, good db /\ (exists tok, readable h tok db) /\ reissueToken h owner now e db = (tr, Ok h') /\ In d tr /\
  forall tok tok', ~ readable h tok d /\ ~ readable h' tok' d.
Proof.
  exists exStore, (repeat 3 32), exOwner, 100%Z, exEnv, (fst exCrash), (repeat 5 32), (nth 3 (fst exCrash) emptyW). split; [apply good_exStore|].
  split; [exists (str "token"), (exTok 3 true); split; vm_compute; reflexivity|]. split; [vm_compute; reflexivity|]. split; [apply nth_In; vm_compute; repeat constructor|].
  apply lostIn_spec. vm_compute. reflexivity.
Qed.
(* An error after the issuer answered, without any crash: both tokens are gone for good. *)
Definition exEnvBad : reissueEnv := mkRE true 6 true (Some (str "params")) (Some (str "packet", str "factors")) true None.
Definition exBad : run := reissueToken (repeat 3 32) exOwner 100 exEnvBad exStore.
Theorem C60_error_refuted : exists db h owner now e tr err, good db /\ (exists tok, readable h tok db) /\ reissueToken h owner now e db = (tr, Err err) /\
  forall tok h' tok', h' <> h -> (forall tok0, ~ readable h' tok0 db) -> wfb h' -> ~ readable h tok (hd emptyW tr) /\ ~ readable h' tok' (hd emptyW tr).
Proof.
  exists exStore, (repeat 3 32), exOwner, 100%Z, exEnvBad, (fst exBad), errFatal. split; [apply good_exStore|]. split; [exists (str "token"), (exTok 3 true); split; vm_compute; reflexivity|]. split; [vm_compute; reflexivity|].
  assert (LAST : hd emptyW (fst exBad) = wrun [WSet (exTok 1 false); WSet (exTok 2 false)] emptyW) by (vm_compute; reflexivity). rewrite LAST.
  intros tok h' tok' NE NR W. split; [intros (t & E & _); vm_compute in E; discriminate|]. intros (t & E & ET). apply (NR tok'). exists t. split; [|exact ET].
  change exStore with (wrun [WSet (exTok 3 true)] (wrun [WSet (exTok 1 false); WSet (exTok 2 false)] emptyW)). change (wrun [WSet (exTok 3 true)]) with (fun d => wstep d (WSet (exTok 3 true))). cbn beta.
  rewrite get_set; [|apply valid_exTok; lia| |exact W].
  - destruct (beq (tHash (exTok 3 true)) h') eqn:B; [apply beq_spec in B; elim NE; symmetry; exact B|exact E].
  - apply good_run; [|apply good_empty]. repeat (apply Forall_cons; [apply valid_exTok; lia|]). apply Forall_nil.
Qed.
(* A crash between the two statements of SetToken: the row says that there is a state, but there is none. *)
Theorem C60_state_refuted : exists db h owner now e tr d, good db /\ (exists tok, readable h tok db) /\ reissueToken h owner now e db = (tr, Err errRetry) /\ In d tr /\ forall tok, ~ readable h tok d.
Proof.
  set (e := mkRE true 6 true (Some (str "params")) (Some (str "packet", str "factors")) false None).
  exists exStore, (repeat 3 32), exOwner, 100%Z, e, (fst (reissueToken (repeat 3 32) exOwner 100 e exStore)), (nth 4 (fst (reissueToken (repeat 3 32) exOwner 100 e exStore)) emptyW). split; [apply good_exStore|].
  split; [exists (str "token"), (exTok 3 true); split; vm_compute; reflexivity|]. split; [vm_compute; reflexivity|]. split; [apply nth_In; vm_compute; repeat constructor|].
  intros tok (t & E & _). vm_compute in E. discriminate.
Qed.

Lemma hasTok_upd p l tm db h tok : hasTok h tok db -> hasTok h tok (mkWdb (tupd p (setLock l tm) (wTok db)) (wSt db)).
Proof. intros (i & r & I & E & T). exists i. eexists. split; [exact (In_lock I)|]. split; [exact E|exact T]. Qed.
Lemma hasTok_lock h tok h' id now db : hasTok h tok db -> hasTok h tok (snd (lockToken h' id now db)).
Proof. intros H. unfold lockToken. destruct (thas _ _); [|exact H]. apply hasTok_upd, H. Qed.
Lemma hasTok_setRow h tok g db : wHash g = hexenc h -> wToken g = b64enc tok -> hasTok h tok (setRow g db).
Proof.
  intros E T. unfold setRow. destruct (thas _ _) eqn:TH.
  - apply thas_true in TH as [[i r] [I B]]. cbn [fst snd] in B. exists i. eexists. split; [cbn [wTok]; apply In_tupd; exists (i, r); split; [exact I|]; cbn [fst snd]; rewrite B; reflexivity|]. split; [exact E|exact T].
  - exists (nextId (wTok db)), g. split; [cbn [wTok]; apply In_tins; right; reflexivity|]. auto.
Qed.
Lemma encode_hash t g st : encodeToken t = Ok (g, st) -> wHash g = hexenc (tHash t) /\ wToken g = b64enc (tToken t).
Proof.
  intros E. unfold encodeToken in E. destruct (tPub t); [|discriminate]. destruct (_ || isSome (tParams t)); [destruct (derMarshal _); [|discriminate]|]; cbn [rbind] in E; assert (Q : g = fst (g, st)) by reflexivity; injection E as <- <-; split; reflexivity.
Qed.
Lemma setTokenT_tr t tr tr' : setTokenT t tr = Ok tr' -> exists d1 d2, tr' = d2 :: d1 :: tr /\ hasTok (tHash t) (tToken t) d1 /\ hasTok (tHash t) (tToken t) d2 /\ setToken t (now_ tr) = Ok d2.
Proof.
  intros E. unfold setTokenT in E. destruct (encodeToken t) as [[g st]| |] eqn:EN; [|discriminate|discriminate]. cbn [rbind] in E. destruct (encode_hash _ _ _ EN) as [H1 H2]. exists (setRow g (now_ tr)), (setState (wHash g) st (setRow g (now_ tr))).
  split; [injection E as <-; reflexivity|]. split; [apply hasTok_setRow; assumption|]. split.
  - unfold setState. destruct st; [apply hasTok_setRow; assumption|]. destruct (hasTok_setRow (tHash t) (tToken t) g (now_ tr) H1 H2) as (i & r & I & X). exists i, r. cbn [wTok]. auto.
  - unfold setToken. rewrite EN. reflexivity.
Qed.
Lemma prepare_tr owner e te tr tr' r : prepare owner e te tr = (tr', r) -> exists new, tr' = new ++ tr /\ Forall (hasTok (tHash te) (tToken te)) new /\
  match r with Ok te' => tHash te' = tHash te /\ tToken te' = tToken te | _ => True end.
Proof.
  unfold prepare. destruct (tPacket te) as [pk|] eqn:PK.
  { intros E. injection E as <- <-. exists []. repeat split. constructor. }
  assert (S2 : forall te' tr1 new, tr1 = new ++ tr -> tHash te' = tHash te -> tToken te' = tToken te -> Forall (hasTok (tHash te) (tToken te)) new ->
    match owner with
    | Some o => match reBlind e with
                | Some (packet, blind) => match setTokenT (withPacket o packet blind te') tr1 with Ok tr2 => (tr2, Ok (withPacket o packet blind te')) | Err s => (tr1, Err s) | Panic => (tr1, Panic) end
                | None => (tr1, Err errFatal) end
    | None => (tr1, Panic) end = (tr', r) -> exists new, tr' = new ++ tr /\ Forall (hasTok (tHash te) (tToken te)) new /\ match r with Ok te' => tHash te' = tHash te /\ tToken te' = tToken te | _ => True end).
  { intros te' tr1 new E1 EH ET F. destruct owner as [o|]; [|intros E; injection E as <- <-; exists new; auto]. destruct (reBlind e) as [[packet blind]|]; [|intros E; injection E as <- <-; exists new; auto].
    destruct (setTokenT _ tr1) as [tr2| |] eqn:ST; intros E; injection E as <- <-; [|exists new; auto|exists new; auto].
    apply setTokenT_tr in ST as (d1 & d2 & -> & H1 & H2 & _). cbn [withPacket tHash tToken] in H1, H2. exists (d2 :: d1 :: new). split; [rewrite E1; reflexivity|]. split; [|split; [exact EH|exact ET]].
    rewrite EH, ET in H1, H2. repeat (constructor; [assumption|]). exact F. }
  destruct (tParams te) as [pa|] eqn:PA; [intros E; apply (S2 te tr []); auto|]. destruct (reParams e) as [p|]; [|intros E; injection E as <- <-; exists []; auto].
  destruct (setTokenT (withParams p te) tr) as [tr1| |] eqn:ST; [|intros E; injection E as <- <-; exists []; auto|intros E; injection E as <- <-; exists []; auto].
  apply setTokenT_tr in ST as (d1 & d2 & -> & H1 & H2 & _). intros E. apply (S2 (withParams p te) (d2 :: d1 :: tr) [d2; d1]); auto.
Qed.
(* As long as the issuer has not answered, every crash leaves the token itself in the wallet's table. *)
Theorem C60_unanswered_partial : forall h tok owner now e db tr r, good db -> wfb h -> readable h tok db -> reReply e = false -> reissueToken h owner now e db = (tr, r) ->
  Forall (hasTok h tok) tr.
Proof.
  intros h tok owner now e db tr r G W (t & GT & TT) NR E. 
  assert (HT : hasTok h tok db).
  { destruct (row_or_none db h) as [(i & row & I & EH)|N0]; [|rewrite getToken_none in GT by exact N0; discriminate]. destruct (gd_rows _ G _ _ I) as [t0 R]. rewrite (getToken_row db i row t0 h (-1) G I R W EH) in GT. cbn [Z.leb Z.compare andb] in GT.
    exists i, row. split; [exact I|]. split; [exact EH|]. destruct R as (V & g & st & EG & RR & _). destruct (encode_hash _ _ _ EG) as [_ Q]. assert (tToken t0 = tok) as <- by (assert (Q2 : norm t0 = t) by congruence; rewrite <- Q2 in TT; exact TT). rewrite RR. exact Q. }
  unfold reissueToken in E. destruct (reOnline e); cbn [negb] in E; [|injection E as <- <-; repeat constructor; exact HT].
  destruct (lockToken h (reID e) now db) as [l db1] eqn:LT. assert (H1 : hasTok h tok db1) by (pose proof (hasTok_lock h tok h (reID e) now db HT) as Q; rewrite LT in Q; exact Q).
  assert (G1 : good db1) by (pose proof (good_lockToken h (reID e) now db G) as Q; rewrite LT in Q; exact Q).
  destruct (l =? 0)%Z; [injection E as <- <-; repeat constructor; assumption|].
  assert (BASE : Forall (hasTok h tok) [db1; db]) by (repeat constructor; assumption).
  assert (UN : forall tr0, Forall (hasTok h tok) tr0 -> tr0 <> [] -> Forall (hasTok h tok) (unlockToken h (now_ tr0) :: tr0)).
  { intros tr0 F0 NE. constructor; [|exact F0]. unfold unlockToken. apply hasTok_upd. destruct tr0; [congruence|]. exact (Forall_inv F0). }
  destruct (getToken h l db1) as [te|err|] eqn:GL.
  - destruct (isSome (tPriv te)); cbn [negb] in E; [|injection E as <- <-; apply (UN [db1; db]); [exact BASE|discriminate]]. destruct (reKey e); cbn [negb] in E; [|injection E as <- <-; apply (UN [db1; db]); [exact BASE|discriminate]].
    assert (EH : tHash te = h) by (apply (get_hash db1 h l); assumption).
    assert (ET : tToken te = tok).
    { destruct (row_or_none db1 h) as [(i & row & I & EI)|N0]; [|rewrite getToken_none in GL by exact N0; discriminate]. destruct (gd_rows _ G1 _ _ I) as [t0 R]. rewrite (getToken_row db1 i row t0 h l G1 I R W EI) in GL. destruct (_ && _ && _); [discriminate|].
      assert (te = norm t0) as -> by congruence. pose proof (get_lock db (WLock h (reID e) now) h G W Logic.I) as Q. cbn [wstep] in Q. rewrite LT in Q. cbn [snd] in Q. rewrite (getToken_row db1 i row t0 h (-1) G1 I R W EI) in Q. cbn [Z.leb Z.compare andb] in Q.
      rewrite GT in Q. assert (norm t0 = t) as -> by congruence. exact TT. }
    destruct (prepare owner e te [db1; db]) as [tr0 r0] eqn:PR. apply prepare_tr in PR as (new & -> & FN & _). rewrite EH, ET in FN.
    assert (F0 : Forall (hasTok h tok) (new ++ [db1; db])) by (apply Forall_app; split; assumption). assert (NE : new ++ [db1; db] <> []) by (intros Q; apply app_eq_nil in Q as [_ Q]; discriminate).
    rewrite NR in E. destruct r0 as [te'|s|]; injection E as <- <-; exact (UN _ F0 NE).
  - injection E as <- <-. apply (UN [db1; db]); [exact BASE|discriminate].
  - injection E as <- <-. apply (UN [db1; db]); [exact BASE|discriminate].
Qed.
Example C60_ex : good exStore /\ readable (repeat 3 32) (str "token") exStore.
Proof. split; [apply good_exStore|]. exists (exTok 3 true). split; vm_compute; reflexivity. Qed.
(* After a successful reissue the new token is in the wallet and can be read. *)
Definition properEnv (e : reissueEnv) : Prop :=
  match reNew e with Some (h, tok, _, _) => wfb h /\ wfb tok | None => True end /\ small (reParams e) /\
  match reBlind e with Some (p, b) => small (Some p) /\ small (Some b) | None => True end.
Lemma norm_valid t : valid t -> valid (norm t).
Proof.
  assert (S : forall o, small o -> small (normOpt o)). { intros [[|c b]|] H; [exact Logic.I|exact H|exact Logic.I]. }
  intros (A & B & C & D & E & F & K & L & M & N0). unfold valid, norm. cbn [tHash tToken tPub tPriv tNewPub tNewPriv tParams tPacket tBlind]. do 5 (split; [assumption|]). split; [destruct (kept t); [exact F|exact Logic.I]|]. split; [exact K|]. auto.
Qed.
Lemma setTokenT_good t tr tr' : valid t -> good (now_ tr) -> setTokenT t tr = Ok tr' -> good (now_ tr').
Proof.
  intros V G E. apply setTokenT_tr in E as (d1 & d2 & -> & _ & _ & ST). pose proof (good_step (now_ tr) (WSet t) V G) as Q. cbn [wstep] in Q. rewrite ST in Q. exact Q.
Qed.
Lemma get_good db h l te : good db -> wfb h -> getToken h l db = Ok te -> valid te.
Proof.
  intros G W GL. destruct (row_or_none db h) as [(i & row & I & EI)|N0]; [|rewrite getToken_none in GL by exact N0; discriminate]. destruct (gd_rows _ G _ _ I) as [t0 R]. rewrite (getToken_row db i row t0 h l G I R W EI) in GL. destruct (_ && _ && _); [discriminate|].
  assert (te = norm t0) as -> by congruence. apply norm_valid, R.
Qed.
Lemma prepare_good owner e te tr tr' te' : valid te -> good (now_ tr) -> properEnv e -> isArr 32 owner -> prepare owner e te tr = (tr', Ok te') -> valid te' /\ good (now_ tr') /\ tHash te' = tHash te.
Proof.
  intros V G (P1 & P2 & P3) AO. unfold prepare. destruct (tPacket te) as [pk|] eqn:PK; [intros E; injection E as <- <-; auto|].
  assert (S2 : forall te1 tr1, valid te1 -> good (now_ tr1) -> tHash te1 = tHash te ->
    match owner with
    | Some o => match reBlind e with
                | Some (packet, blind) => match setTokenT (withPacket o packet blind te1) tr1 with Ok tr2 => (tr2, Ok (withPacket o packet blind te1)) | Err s => (tr1, Err s) | Panic => (tr1, Panic) end
                | None => (tr1, Err errFatal) end
    | None => (tr1, Panic) end = (tr', Ok te') -> valid te' /\ good (now_ tr') /\ tHash te' = tHash te).
  { intros te1 tr1 V1 G1 EH. destruct owner as [o|]; [|discriminate]. destruct (reBlind e) as [[packet blind]|]; [|discriminate]. destruct (setTokenT _ tr1) as [tr2| |] eqn:ST; intros E; [|discriminate|discriminate]. injection E as <- <-.
    assert (V2 : valid (withPacket o packet blind te1)). { destruct V1 as (A & B & C & D & E & F & K & L & M & N0). destruct P3. unfold valid. cbn [withPacket tHash tToken tPub tPriv tNewPub tNewPriv tParams tPacket tBlind]. do 5 (split; [assumption|]). repeat (split; [assumption|]); assumption. }
    split; [exact V2|]. split; [eapply setTokenT_good; eassumption|exact EH]. }
  destruct (tParams te) as [pa|] eqn:PA; [apply S2; auto|]. destruct (reParams e) as [p|]; [|discriminate]. destruct (setTokenT (withParams p te) tr) as [tr1| |] eqn:ST; [|discriminate|discriminate].
  assert (V2 : valid (withParams p te)). { destruct V as (A & B & C & D & E & F & K & L & M & N0). unfold valid. cbn [withParams tHash tToken tPub tPriv tNewPub tNewPriv tParams tPacket tBlind]. do 5 (split; [assumption|]). repeat (split; [assumption|]); assumption. }
  apply S2; [exact V2|eapply setTokenT_good; eassumption|reflexivity].
Qed.
Theorem C60_success_partial : forall h owner now e db tr h', good db -> wfb h -> properEnv e -> isArr 32 owner -> reissueToken h owner now e db = (tr, Ok h') ->
  good (now_ tr) /\ exists tok usage expire t, reNew e = Some (h', tok, usage, expire) /\ getToken h' (-1) (now_ tr) = Ok t /\ tToken t = tok /\ tUsage t = usage /\ tExpire t = expire.
Proof.
  intros h owner now e db tr h' G W P AO E. unfold reissueToken in E. destruct (reOnline e); cbn [negb] in E; [|discriminate]. destruct (lockToken h (reID e) now db) as [l db1] eqn:LT.
  assert (G1 : good db1) by (pose proof (good_lockToken h (reID e) now db G) as Q; rewrite LT in Q; exact Q). destruct (l =? 0)%Z; [discriminate|].
  destruct (getToken h l db1) as [te|err|] eqn:GL; [|discriminate|discriminate]. pose proof (get_good _ _ _ _ G1 W GL) as VT. pose proof (get_hash _ _ _ _ G1 W GL) as EH.
  destruct (isSome (tPriv te)); cbn [negb] in E; [|discriminate]. destruct (reKey e); cbn [negb] in E; [|discriminate]. destruct (prepare owner e te [db1; db]) as [tr0 [te'|s|]] eqn:PR; [|discriminate|discriminate].
  destruct (prepare_good owner e te [db1; db] tr0 te' VT G1 P AO PR) as (V' & G' & EH'). destruct (reReply e); [|discriminate]. unfold finish in E.
  destruct (reNew e) as [[[[hn tok] usage] expire]|] eqn:RN; [|discriminate].
  assert (GD : good (now_ (delState (hexenc (tHash te')) (now_ (delRow (hexenc (tHash te')) (now_ tr0) :: tr0)) :: delRow (hexenc (tHash te')) (now_ tr0) :: tr0))).
  { cbn [now_ hd]. change (good (delToken (tHash te') (now_ tr0))). apply good_del; [apply V'|exact G']. }
  set (tn := mkTE hn tok None _ _ _ _ usage expire None None None None) in E. set (tr1 := delState _ _ :: _) in E.
  destruct (setTokenT tn tr1) as [tr2| |] eqn:ST; [|discriminate|discriminate]. injection E as <- <-.
  assert (VN : valid tn).
  { destruct V' as (A & B & C & D & E1 & F & K & _). destruct P as [P1 _]. rewrite RN in P1. unfold valid, tn. cbn [tHash tToken tPub tPriv tNewPub tNewPriv tParams tPacket tBlind]. split; [apply P1|]. split; [apply P1|].
    split; [|split; [exact F|split; [exact K|repeat split]]]. intros Q. unfold setTokenT, tn, encodeToken in ST. cbn [tPub] in ST. rewrite Q in ST. discriminate. }
  pose proof (setTokenT_good _ _ _ VN GD ST) as G2. apply setTokenT_tr in ST as (d1 & d2 & -> & _ & _ & ST). cbn [now_ hd] in G2 |- *.
  split; [apply good_locks, G2|]. destruct P as [P1 _]. rewrite RN in P1. exists tok, usage, expire, (norm tn). split; [reflexivity|]. split; [|repeat split].
  unfold unlockToken. rewrite get_locks; [|exact G2|apply P1]. pose proof (get_set tn (now_ tr1) hn VN GD (proj1 P1)) as Q. cbn [wstep] in Q. rewrite ST in Q. rewrite Q. change (tHash tn) with hn. rewrite beq_refl. reflexivity.
Qed.
Example C60_success_ex : exists tr, reissueToken (repeat 3 32) exOwner 100 exEnv exStore = (tr, Ok (repeat 5 32)) /\ properEnv exEnv /\ isArr 32 exOwner.
Proof.
  exists (fst exCrash). split; [vm_compute; reflexivity|]. split; [|split; [reflexivity|apply wfb_repeat; lia]]. unfold properEnv, exEnv, small. cbn [reNew reParams reBlind].
  repeat split; try apply wfb_repeat; try lia; repeat (constructor; [reflexivity|]); constructor.
Qed.

(* ---------------- C85 ---------------- *)
Definition noWallet (d : wdb) : res bytes * wdb := (Err errRetry, d).
Definition alone (d : wdb) : wdb := d.
Lemma getAndLockM_alone n usage owner now : forall ids db, getAndLockM alone n usage owner ids now db = getAndLockN n usage owner ids now db.
Proof. induction n as [|n IH]; intros [|id ids] db; try reflexivity. cbn [getAndLockM getAndLockN]. change (getAndLock1M alone usage owner id now db) with (getAndLock1 usage owner id now db). destruct (getAndLock1 _ _ _ _ _) as [t d]. rewrite IH. reflexivity. Qed.
(* The runner deletes an expired token just after it was found and locked: success is reported, but there is no token. *)
Theorem C85_refuted : exists ops usage owner ids now wallet e id db db', let mid d := wrun ops d in
  good db /\ Forall okOp ops /\ Forall (fun i => 0 < i < 2 ^ 31 /\ freshId i db)%Z ids /\ clientGetToken mid usage owner ids now wallet e id db = (Ok None, db').
Proof.
  exists [WExpire 2700000], (str "Message"), None, [7; 8; 9; 10; 11]%Z, 2700000%Z, noWallet, exEnv, 7%Z, exStore. eexists. cbv zeta. split; [apply good_exStore|]. split; [constructor; [exact Logic.I|constructor]|]. split.
  - assert (F : forall id, (0 < id)%Z -> freshId id exStore) by (intros id P i r I; vm_compute in I; repeat (destruct I as [I|I]; [injection I as _ <-; cbn [wLock]; lia|]); elim I).
    repeat (constructor; [split; [lia|apply F; lia]|]). constructor.
  - vm_compute. reflexivity.
Qed.
(* Without interference there is a token or an error. *)
Theorem C85_token_partial : forall usage owner id0 ids now wallet e id db r db', good db -> (0 < id0)%Z -> freshId id0 db ->
  clientGetToken alone usage owner (id0 :: ids) now wallet e id db = (r, db') -> r <> Ok None.
Proof.
  intros usage owner id0 ids now wallet e id db r db' G P F E. unfold clientGetToken in E. rewrite getAndLockM_alone in E. pose proof (take_one usage owner id0 ids now db G P F) as T1. unfold getAndLockToken in T1. destruct (first (usable usage owner) (wTok db)) as [row|].
  - destruct T1 as (t & _ & EQ & _). rewrite EQ in E. injection E as <- <-. discriminate.
  - rewrite T1 in E. rewrite String.eqb_refl in E. cbn [negb] in E. destruct owner as [o|]; [|injection E as <- <-; discriminate].
    destruct (match findToken usage db with Ok t => _ | _ => _ end) as [[h| |] d]; [|injection E as <- <-; discriminate|injection E as <- <-; discriminate].
    destruct (lockToken h id now d) as [l d']. destruct (l <=? 0)%Z; [injection E as <- <-; discriminate|]. destruct (getToken h l d'); injection E as <- <-; discriminate.
Qed.
Example C85_ex : freshId 7 exStore /\ exists t d, clientGetToken alone (str "Message") None [7%Z] 100 noWallet exEnv 8 exStore = (Ok (Some t), d).
Proof.
  split; [intros i r I; vm_compute in I; repeat (destruct I as [I|I]; [injection I as _ <-; discriminate|]); elim I|]. exists (exTok 1 false). eexists. vm_compute. reflexivity.
Qed.

(* ---------------- C86 ---------------- *)
(* serviceguard/client/runner.go:46-60: the runner calls ReissueToken with owner nil.  This never succeeds unless a packet is under way,
   and panics whenever the servers answer. *)
Theorem C86_never : forall h now e db tr r t, good db -> wfb h -> getToken h (-1) db = Ok t -> tPacket t = None -> reissueToken h None now e db = (tr, r) -> forall h', r <> Ok h'.
Proof.
  intros h now e db tr r t G W GT PK E h'. unfold reissueToken in E. destruct (reOnline e); cbn [negb] in E; [|injection E as <- <-; discriminate]. destruct (lockToken h (reID e) now db) as [l db1] eqn:LT. destruct (l =? 0)%Z; [injection E as <- <-; discriminate|].
  assert (G1 : good db1) by (pose proof (good_lockToken h (reID e) now db G) as Q; rewrite LT in Q; exact Q).
  destruct (getToken h l db1) as [te|err|] eqn:GL; [|injection E as <- <-; discriminate|injection E as <- <-; discriminate].
  assert (te = t) as ->.
  { destruct (row_or_none db1 h) as [(i & row & I & EI)|N0]; [|rewrite getToken_none in GL by exact N0; discriminate]. destruct (gd_rows _ G1 _ _ I) as [t0 R]. rewrite (getToken_row db1 i row t0 h l G1 I R W EI) in GL. destruct (_ && _ && _); [discriminate|].
    pose proof (get_lock db (WLock h (reID e) now) h G W Logic.I) as Q. cbn [wstep] in Q. rewrite LT in Q. cbn [snd] in Q. rewrite (getToken_row db1 i row t0 h (-1) G1 I R W EI) in Q. cbn [Z.leb Z.compare andb] in Q. congruence. }
  destruct (isSome (tPriv t)); cbn [negb] in E; [|injection E as <- <-; discriminate]. destruct (reKey e); cbn [negb] in E; [|injection E as <- <-; discriminate].
  unfold prepare in E. rewrite PK in E. destruct (tParams t); [injection E as <- <-; discriminate|]. destruct (reParams e); [|injection E as <- <-; discriminate]. destruct (setTokenT _ _) as [tr1| |]; injection E as <- <-; discriminate.
Qed.
Theorem C86_refuted : exists db h now e tr, good db /\ getExpire now db = Some h /\ reOnline e = true /\ reKey e = true /\ reParams e <> None /\ reBlind e <> None /\ reReply e = true /\ reNew e <> None /\ (0 < reID e)%Z /\ freshId (reID e) db /\
  reissueToken h None now e db = (tr, Panic) /\ getExpire now (hd emptyW tr) = None.
Proof.
  exists exStore, (repeat 3 32), 1990000%Z, exEnv, (fst (reissueToken (repeat 3 32) None 1990000 exEnv exStore)). split; [apply good_exStore|]. split; [vm_compute; reflexivity|].
  split; [reflexivity|]. split; [reflexivity|]. split; [discriminate|]. split; [discriminate|]. split; [reflexivity|]. split; [discriminate|]. split; [reflexivity|].
  split; [intros i r I; vm_compute in I; repeat (destruct I as [I|I]; [injection I as _ <-; discriminate|]); elim I|]. split; vm_compute; reflexivity.
Qed.
(* The expiring token chosen is unlocked, renewable, the user's own, not being reissued, and about to expire; if there is such a token, one is chosen. *)
Theorem C86_chosen_partial : forall now db h, good db -> getExpire now db = Some h ->
  exists t, getToken h 0 db = Ok t /\ tRenew t = true /\ tPriv t <> None /\ tPacket t = None /\ tParams t = None /\ (tExpire t < now + 604800)%Z.
Proof.
  intros now db h G E. unfold getExpire in E. destruct (first _ _) as [r|] eqn:FI; [|discriminate]. apply first_some in FI as (i & I & U). destruct (good_hash _ _ _ G I) as (h0 & W & EH & HD). rewrite HD in E. injection E as <-.
  destruct (gd_rows _ G _ _ I) as [t R]. rewrite !andb_true_iff in U. destruct U as (((((U1 & U2) & U3) & U4) & U5) & U6). apply Z.eqb_eq in U1. apply Z.ltb_lt in U6.
  exists (norm t). split; [rewrite (getToken_row db i r t h0 0 G I R W EH), U1; reflexivity|]. destruct R as (V & g & st & EG & RR & _). unfold encodeToken in EG. destruct (tPub t) as [pub|]; [|discriminate].
  assert (Q : wRenew g = tRenew t /\ wExpire g = tExpire t /\ wSelf g = isSome (tPriv t) /\ wParams g = isSome (tParams t) /\ wState g = (isSome (tPacket t) || isSome (tBlind t) || isSome (tNewPriv t))).
  { destruct (_ || isSome (tParams t)); [destruct (derMarshal _); [|discriminate]|]; cbn [rbind] in EG; injection EG as <- <-; repeat split. }
  destruct Q as (Q1 & Q2 & Q3 & Q4 & Q5). rewrite RR in U2, U3, U4, U5, U6. cbn [setLock wRenew wState wParams wSelf wExpire] in *. rewrite Q1 in U2. rewrite Q5 in U3. rewrite Q4 in U4. rewrite Q3 in U5. rewrite Q2 in U6.
  cbn [norm tRenew tPriv tPacket tParams tExpire]. split; [exact U2|]. split; [destruct (tPriv t); [discriminate|discriminate U5]|]. unfold normOpt.
  split; [destruct (tPacket t); [discriminate U3|reflexivity]|]. split; [destruct (tParams t); [discriminate U4|reflexivity]|]. exact U6.
Qed.
Example C86_ex : getExpire 1990000 exStore = Some (repeat 3 32).
Proof. vm_compute. reflexivity. Qed.

(* ---------------- C64 ---------------- *)
(* The specification: a target is being loaded from the moment its balance is below the low mark until it reaches the high mark. *)
Definition wants (loading : bool) (t : target) (b : Z) : bool := (loading || (b <? gLow t)%Z) && (b <? gHigh t)%Z.
Definition loading (t : target) : bool := (0 <? gLoad t)%Z.
Lemma wants_spec t b : wants (loading t) t b = negb ((gLow t <=? b)%Z && (gLoad t <=? 0)%Z) && negb (gHigh t <=? b)%Z.
Proof. unfold wants, loading. rewrite !Z.leb_antisym, negb_andb, !negb_involutive. f_equal. apply orb_comm. Qed.
(* A token is fetched exactly if some target wants one, for the first such target; entries before it stop loading if they
   are full, entries after it are not looked at. *)
Theorem C64_fetch : forall bal ok ts,
  match snd (meetTarget bal ok ts) with
  | None => forall o t, In (o, t) ts -> wants (loading t) t (bal (gUsage t) o) = false
  | Some o => exists a t b, ts = a ++ (o, t) :: b /\ wants (loading t) t (bal (gUsage t) o) = true /\
      (forall o' t', In (o', t') a -> wants (loading t') t' (bal (gUsage t') o') = false) /\
      exists a' t', fst (meetTarget bal ok ts) = a' ++ (o, t') :: b /\ length a' = length a /\
        gUsage t' = gUsage t /\ gLow t' = gLow t /\ gHigh t' = gHigh t /\ loading t' = negb (ok && (gHigh t <=? bal (gUsage t) o + 1)%Z)
  end.
Proof.
  intros bal ok ts. induction ts as [|[o t] ts IH]; [intros o t []|]. cbn [meetTarget]. pose proof (wants_spec t (bal (gUsage t) o)) as WS.
  destruct ((gLow t <=? bal (gUsage t) o)%Z && (gLoad t <=? 0)%Z) eqn:A; [|destruct (gHigh t <=? bal (gUsage t) o)%Z eqn:B].
  - cbn [negb andb] in WS. destruct (meetTarget bal ok ts) as [r [w|]]; cbn [fst snd] in *.
    + destruct IH as (a & t0 & b & -> & W1 & W2 & a' & t' & -> & L & X). exists ((o, t) :: a), t0, b. split; [reflexivity|]. split; [exact W1|]. split; [intros o' t1 [Q|Q]; [injection Q as <- <-; exact WS|apply W2; exact Q]|].
      exists ((o, t) :: a'), t'. cbn [length app]. auto.
    + intros o' t' [Q|Q]; [injection Q as <- <-; exact WS|apply IH; exact Q].
  - cbn [negb] in WS. rewrite andb_false_r in WS. destruct (meetTarget bal ok ts) as [r [w|]]; cbn [fst snd] in *.
    + destruct IH as (a & t0 & b & -> & W1 & W2 & a' & t' & -> & L & X). exists ((o, t) :: a), t0, b. split; [reflexivity|]. split; [exact W1|]. split; [intros o' t1 [Q|Q]; [injection Q as <- <-; exact WS|apply W2; exact Q]|].
      exists ((o, mkTarget (gUsage t) (gLow t) (gHigh t) 0) :: a'), t'. cbn [length app]. auto.
    + intros o' t' [Q|Q]; [injection Q as <- <-; exact WS|apply IH; exact Q].
  - cbn [negb andb] in WS. cbn [fst snd]. exists [], t, ts. split; [reflexivity|]. split; [exact WS|]. split; [intros ? ? []|]. exists []. eexists. split; [reflexivity|]. split; [reflexivity|]. cbn [gUsage gLow gHigh]. repeat (split; [reflexivity|]).
    apply Z.leb_gt in B. unfold loading. cbn [gLoad]. destruct ok; cbn [andb negb].
    + destruct (Z.leb_spec (gHigh t) (bal (gUsage t) o + 1)); cbn [negb]; [apply Z.ltb_ge|apply Z.ltb_lt]; lia.
    + apply Z.ltb_lt. lia.
Qed.
Example C64_fetch_ex : snd (meetTarget (fun _ _ => 2%Z) true [(str "a", mkTarget (str "u") 2 5 0); (str "b", mkTarget (str "u") 3 5 0)]) = Some (str "b").
Proof. reflexivity. Qed.
(* One target whose fetches succeed: the balance rises by one per round up to exactly the high mark, then nothing more is fetched. *)
Definition round (o : bytes) (s : target * Z) : target * Z * bool :=
  match meetTarget (fun _ _ => snd s) true [(o, fst s)] with
  | ([(_, t)], w) => (t, if isSome w then (snd s + 1)%Z else snd s, isSome w)
  | _ => (fst s, snd s, false)
  end.
Fixpoint rounds (o : bytes) (n : nat) (s : target * Z) : target * Z * N :=
  match n with
  | O => (fst s, snd s, 0)
  | S n' => let '(t, b, f) := round o s in let '(t', b', k) := rounds o n' (t, b) in (t', b', k + (if f then 1 else 0))
  end.
Lemma round_fetch o t b : wants (loading t) t b = true -> exists t', round o (t, b) = (t', (b + 1)%Z, true) /\ gLow t' = gLow t /\ gHigh t' = gHigh t /\ gLoad t' = (gHigh t - b - 1)%Z.
Proof.
  rewrite wants_spec. intros W. apply andb_true_iff in W as [A B]. apply negb_true_iff in A. apply negb_true_iff in B. unfold round. cbn [meetTarget fst snd]. rewrite A, B. cbn [isSome]. eexists. split; [reflexivity|]. repeat split.
Qed.
Lemma round_idle o t b : wants (loading t) t b = false -> exists t', round o (t, b) = (t', b, false) /\ gLow t' = gLow t /\ gHigh t' = gHigh t /\ (gLoad t' = gLoad t \/ gLoad t' = 0%Z).
Proof.
  rewrite wants_spec. intros W. unfold round. cbn [meetTarget fst snd]. destruct ((gLow t <=? b)%Z && (gLoad t <=? 0)%Z); [exists t; auto|]. cbn [negb andb] in W. apply negb_false_iff in W. rewrite W. cbn [isSome]. eexists. split; [reflexivity|]. cbn [gLow gHigh gLoad]. auto.
Qed.
Lemma idle_rounds o n : forall t b, (gHigh t <= b)%Z \/ (gLow t <= b)%Z /\ (gLoad t <= 0)%Z -> exists t', rounds o n (t, b) = (t', b, 0).
Proof.
  induction n as [|n IH]; intros t b H; [exists t; reflexivity|]. cbn [rounds]. destruct (round_idle o t b) as (t' & -> & E1 & E2 & E3).
  { rewrite wants_spec. destruct H as [H|[H1 H2]]; [apply Z.leb_le in H; rewrite H; apply andb_false_r|apply Z.leb_le in H1, H2; rewrite H1, H2; reflexivity]. }
  destruct (IH t' b) as [t2 ->]; [rewrite E1, E2; destruct H as [H|[H1 H2]]; [left; exact H|right; split; [exact H1|lia]]|]. exists t2. reflexivity.
Qed.
Theorem C64_meets : forall o t b n, (gLow t <= gHigh t)%Z -> wants (loading t) t b = true -> (Z.to_nat (gHigh t - b) <= n)%nat ->
  exists t', rounds o n (t, b) = (t', gHigh t, Z.to_N (gHigh t - b)).
Proof.
  intros o t b n LH W L. remember (Z.to_nat (gHigh t - b)) as k eqn:K. revert t b n LH W L K. induction k as [|k IH]; intros t b n LH W L K.
  - unfold wants in W. apply andb_true_iff in W as [_ W]. apply Z.ltb_lt in W. lia.
  - destruct n as [|n]; [lia|]. cbn [rounds]. destruct (round_fetch o t b W) as (t' & -> & E1 & E2 & E3). unfold wants in W. apply andb_true_iff in W as [_ W]. apply Z.ltb_lt in W.
    destruct (Z.eq_dec (b + 1) (gHigh t)) as [EQ|NE].
    + destruct (idle_rounds o n t' (b + 1)) as [t2 ->]; [left; rewrite E2; lia|]. exists t2. f_equal; [f_equal; exact EQ|]. replace (gHigh t - b)%Z with 1%Z by lia. reflexivity.
    + assert (W' : wants (loading t') t' (b + 1) = true). { unfold wants, loading. rewrite E2, E3. assert (A1 : (0 <? gHigh t - b - 1)%Z = true) by (apply Z.ltb_lt; lia). assert (A2 : (b + 1 <? gHigh t)%Z = true) by (apply Z.ltb_lt; lia). rewrite A1, A2. reflexivity. }
      destruct (IH t' (b + 1)%Z n) as [t2 R]; [lia|exact W'|lia|rewrite E2; lia|]. rewrite R. exists t2. rewrite E2. f_equal. lia.
Qed.
(* no fetch above the low mark unless loading; none at or above the high mark *)
Theorem C64_hysteresis : forall o t b n, (gLow t <= b)%Z -> loading t = false -> exists t', rounds o n (t, b) = (t', b, 0).
Proof. intros o t b n L H. apply idle_rounds. right. split; [exact L|]. unfold loading in H. apply Z.ltb_ge in H. exact H. Qed.
Example C64_ex : wants (loading (mkTarget (str "u") 2 5 0)) (mkTarget (str "u") 2 5 0) 1 = true /\ snd (rounds (str "o") 9 (mkTarget (str "u") 2 5 0, 1%Z)) = 4.
Proof. split; reflexivity. Qed.

Print Assumptions C60_refuted.
Print Assumptions C60_error_refuted.
Print Assumptions C60_state_refuted.
Print Assumptions C60_unanswered_partial.
Print Assumptions C60_success_partial.
Print Assumptions C85_refuted.
Print Assumptions C85_token_partial.
Print Assumptions C86_never.
Print Assumptions C86_refuted.
Print Assumptions C86_chosen_partial.
Print Assumptions C64_fetch.
Print Assumptions C64_meets.
Print Assumptions C64_hysteresis.
