(* Sending over the key database when every message has a connection of its own: the keys that extend a session are
   filed under row 0 and are never found. *)
From Verif Require Import Base Base64Model CodecModel IdentityModel IdentityProofs JsonModel Maps CryptoModel StoreModel KeysModel KeysProofs MsgFormatModel HeaderModel ProtoModel SqlModel SqlProofs KeyDBModel KeyDBProofs PropsKeyDB KeystoreModel KeystoreProofs.
Local Open Scope N_scope.

Definition isOk {A} (r : res A) : bool := match r with Ok _ => true | _ => false end.
(* the state after a message *)
Definition advanced (ss : state) : state :=
  mkState (stSessCount ss) (stMsgCount ss + 1) (stMaxRecv ss) (stRecipTemp ss) (stSenderPub ss) (stNextSender ss) (stNextSeen ss) (stNym ss) (stKeyInit ss).

Lemma gb_ok {W A B} (m : G W A) (f : A -> G W B) w a w' : m w = (Ok a, w') -> gbind m f w = f a w'.
Proof. intros H. unfold gbind. rewrite H. reflexivity. Qed.
Lemma gb_lift {W A B} (r : res A) (f : A -> G W B) w : gbind (glift r) f w = match r with Ok a => f a w | Err e => (Err e, w) | Panic => (Panic, w) end.
Proof. unfold gbind, glift. destruct r; reflexivity. Qed.
Lemma gb_inv {W A B} (m : G W A) (f : A -> G W B) w r w' : gbind m f w = (r, w') ->
  (exists a wm, m w = (Ok a, wm) /\ f a wm = (r, w')) \/ (isOk r = false /\ exists r0, isOk r0 = false /\ m w = (r0, w')).
Proof.
  unfold gbind. destruct (m w) as [[a|e|] wm]; intros H.
  - left. exists a, wm. auto.
  - injection H as <- <-. right. split; [reflexivity|]. exists (Err e). auto.
  - injection H as <- <-. right. split; [reflexivity|]. exists Panic. auto.
Qed.

Lemma ok_inj {A} (x y : A) : Ok x = Ok y -> x = y.
Proof. intros H. congruence. Qed.
(* ---- what the operations leave of another session's keys ---- *)
Lemma msgKey_same sk sender i d d' : kSess d' = kSess d -> kKeys d' = kKeys d -> dbMessageKey sk sender i d' = dbMessageKey sk sender i d.
Proof. intros E1 E2. unfold dbMessageKey. rewrite E1, E2. reflexivity. Qed.
Lemma msgKey_ok sk sender i d : isOk (dbMessageKey sk sender i d) = true <->
  exists sid r, tmin (bySess sk) (kSess d) = Some (sid, r) /\ sqlInt i = true /\ readKey sid i sender (kKeys d) <> None.
Proof.
  unfold dbMessageKey, readKey. split.
  - destruct (tmin _ _) as [[sid r]|]; [|discriminate]. destruct (sqlInt i); [|discriminate]. cbn [negb]. destruct (tmin _ (kKeys d)) as [[? ?]|] eqn:E; [|discriminate].
    intros _. exists sid, r. rewrite E. split; [reflexivity|]. split; [reflexivity|discriminate].
  - intros (sid & r & -> & -> & H). cbn [negb]. destruct (tmin _ (kKeys d)) as [[? ?]|]; [reflexivity|congruence].
Qed.
Lemma tmin_pos {A} p (t : tbl A) i r : idsOk t -> tmin p t = Some (i, r) -> 0 < i.
Proof. intros [_ F] H. apply tmin_In in H. rewrite Forall_forall in F. apply F. apply in_map_iff. exists (i, r). auto. Qed.
Lemma fold_max_in (l : list N) x : In x l -> x <= fold_right N.max 0 l.
Proof. induction l as [|y l IH]; cbn [In fold_right]; [tauto|]. intros [->|H]; [lia|]. specialize (IH H). lia. Qed.
Lemma nextId_above {A} (t : tbl A) i r : In (i, r) t -> i < nextId t.
Proof. intros H. unfold nextId. assert (Q : In i (map fst t)) by (apply in_map_iff; exists (i, r); auto). apply fold_max_in in Q. lia. Qed.
(* the session row claims at least n keys *)
Definition announced (n : N) (sk : bytes) (d : keydb) : Prop := exists rh ck num, dbSession sk d = Some (rh, ck, num) /\ n <= num.
Lemma announced_same n sk d d' : kSess d' = kSess d -> announced n sk d -> announced n sk d'.
Proof. intros E (rh & ck & num & A & B). exists rh, ck, num. unfold dbSession in *. rewrite E. auto. Qed.
(* extending on a new connection: no message key of an existing session appears *)
Lemma addSession_keys sk' rh ck send recv d d' sk sid r : idsOk (kSess d) -> idsOk (kKeys d) -> kLast d = 0 ->
  addSession sk' rh ck send recv d = Ok d' -> tmin (bySess sk) (kSess d) = Some (sid, r) ->
  idsOk (kSess d') /\ idsOk (kKeys d') /\ kStates d' = kStates d /\
  (forall i sender, isOk (dbMessageKey sk sender i d') = isOk (dbMessageKey sk sender i d)) /\
  forall n, announced n sk d -> announced n sk d'.
Proof.
  intros I1 I2 L E T. unfold addSession in E. destruct (beq sk' []); [discriminate|]. destruct (beq rh []); [discriminate|]. destruct (beq ck []); [discriminate|].
  destruct (negb _) eqn:LN; [discriminate|]. apply negb_false_iff, N.eqb_eq in LN.
  assert (KEY : forall d1 off, idsOk (kSess d1) -> kKeys d1 = kKeys d -> kStates d1 = kStates d -> kLast d1 <> sid ->
    (exists r1, tmin (bySess sk) (kSess d1) = Some (sid, r1) /\ srNum r <= srNum r1) ->
    (let (t, l) := insKeys (kLast d1) off send recv (kKeys d1) (kLast d1) in Ok (setKeys t l d1)) = Ok d' ->
    idsOk (kSess d') /\ idsOk (kKeys d') /\ kStates d' = kStates d /\ (forall i sender, isOk (dbMessageKey sk sender i d') = isOk (dbMessageKey sk sender i d)) /\
    forall n, announced n sk d -> announced n sk d').
  { intros d1 off J1 J2 J3 NE (r1 & T1' & LE1) Q. destruct (insKeys _ _ _ _ _ _) as [t l] eqn:IK. apply ok_inj in Q. subst d'.
    assert (TT : t = fst (insKeys (kLast d1) off send recv (kKeys d1) (kLast d1))) by (rewrite IK; reflexivity).
    cbn [setKeys kSess kKeys kStates]. split; [exact J1|]. split; [rewrite TT, J2; apply insKeys_ids, I2|]. split; [exact J3|]. split.
    2: { intros n (rh0 & ck0 & num0 & A & B). unfold dbSession in A. rewrite T in A. exists (srRoot r1), (srChain r1), (srNum r1).
         unfold dbSession. cbn [setKeys kSess]. rewrite T1'. split; [reflexivity|]. assert (srNum r = num0) by congruence. lia. }
    intros i sender. unfold dbMessageKey. cbn [setKeys kSess kKeys]. rewrite T1', T. destruct (sqlInt i); [|reflexivity]. cbn [negb].
    pose proof (insKeys_read (kLast d1) off send recv (kKeys d1) (kLast d1)) as IR. rewrite J2 in IR at 1. specialize (IR I2 LN sid i sender).
    rewrite <- TT, J2 in IR. replace (sid =? kLast d1) with false in IR by (symmetry; apply N.eqb_neq; congruence). cbn [andb] in IR.
    unfold readKey in IR. destruct (tmin (byKey sid i sender) (kKeys d)) as [[? ?]|]; destruct (tmin (byKey sid i sender) t) as [[? ?]|]; try discriminate IR; reflexivity. }
  destruct (tmin (bySess sk') (kSess d)) as [[sid' r']|] eqn:T'.
  - apply (KEY (setSess (tupd (bySess sk') (fun x => mkSR (srKey x) (srRoot x) ck (srNum r' + lenN send)) (kSess d)) (kLast d) d) (srNum r')); cbn [setSess kSess kKeys kStates kLast].
    + apply idsOk_tupd, I1.
    + reflexivity.
    + reflexivity.
    + rewrite L. pose proof (tmin_pos _ _ _ _ I1 T). lia.
    + rewrite tmin_tupd; [|exact I1|intros i x; unfold bySess; destruct (beq (srKey x) sk') eqn:B; [cbn [srKey]|]; reflexivity].
      rewrite T. eexists. split; [reflexivity|]. unfold bySess at 1. destruct (beq (srKey r) sk') eqn:B; [|lia].
      assert (r' = r); [|subst r'; cbn [srNum]; lia]. apply beq_spec in B. pose proof (proj2 (tmin_some _ _ _ T)) as B2. unfold bySess in B2. cbn [snd] in B2. apply beq_spec in B2.
      assert (sk' = sk) by congruence. subst sk'. congruence.
    + exact E.
  - apply (KEY (setSess (tins (mkSR sk' rh ck (lenN send)) (kSess d)) (nextId (kSess d)) d) 0); cbn [setSess kSess kKeys kStates kLast].
    + apply idsOk_tins, I1.
    + reflexivity.
    + reflexivity.
    + apply tmin_In, nextId_above in T. lia.
    + exists r. rewrite tmin_tins by exact I1. rewrite T. split; [reflexivity|lia].
    + exact E.
Qed.
Lemma delMessageKey_keys sk sender i d d' : idsOk (kKeys d) -> dbDelMessageKey sk sender i d = Ok d' ->
  kSess d' = kSess d /\ kStates d' = kStates d /\ idsOk (kKeys d') /\ kSKeys d' = kSKeys d /\
  forall sk2 s2 j, isOk (dbMessageKey sk2 s2 j d') = true -> isOk (dbMessageKey sk2 s2 j d) = true.
Proof.
  intros I E. unfold dbDelMessageKey in E. destruct (tmin _ _) as [[sid r]|]; [|discriminate]. destruct (negb _); [discriminate|]. apply ok_inj in E. subst d'.
  cbn [setKeys kSess kKeys kStates kSKeys]. split; [reflexivity|]. split; [reflexivity|]. split; [apply idsOk_tdel, I|]. split; [reflexivity|].
  intros sk2 s2 j H. apply msgKey_ok in H as (sid2 & r2 & T & S & R). cbn [setKeys kSess kKeys] in T, R. apply msgKey_ok. exists sid2, r2. split; [exact T|]. split; [exact S|].
  unfold readKey in *. destruct (tmin (byKey sid2 j s2) (tdel _ (kKeys d))) as [[x y]|] eqn:Q; [|congruence].
  destruct (tmin (byKey sid2 j s2) (kKeys d)) as [[? ?]|] eqn:Q2; [discriminate|].
  apply tmin_some in Q as [IN SAT]. apply In_tdel in IN as [IN _].
  rewrite (tmin_none _ _ Q2 _ IN) in SAT. discriminate.
Qed.

Section Limit.
Variable C : Crypto.
(* the encryption keys of the two parties and their public parts *)
Variables (fk tk : keyEntry) (fp tp : bytes).
Hypothesis FP : pub32 fk = Ok fp.
Hypothesis TP : pub32 tk = Ok tp.
(* a call that sends from the one key to the other without resetting the session *)
Record sendTo (a : encArgs) (r : encRnd) : Prop := {
  se_from : pubKey (idUid (eFrom a)) = Ok fk;
  se_to : pubKey (eTo a) = Ok tk;
  se_status : eStatus a <> StatusReset;
  se_clean : eCleanup a < 2 ^ 63;
  se_priv : rSessPriv r <> [] }.
Definition sessionOf (ss : state) : bytes := calcKey C (keHash fk) (keHash tk) (keHash (stSenderPub ss)) (keHash (stRecipTemp ss)).
(* the database is in the state ss, and the session has no message keys from number n on *)
Record upTo (n : N) (ss : state) (w : dbw) : Prop := {
  ut_state : dbGetState (calcStateKey C fp tp) (bDB w) = Ok (Some ss);
  ut_sids : idsOk (kSess (bDB w));
  ut_kids : idsOk (kKeys (bDB w));
  ut_stids : idsOk (kStates (bDB w));
  ut_keys : forall i, n <= i -> isOk (dbMessageKey (sessionOf ss) true i (bDB w)) = false;
  ut_num : announced n (sessionOf ss) (bDB w);
  ut_counts : stSessCount ss < 2 ^ 63 /\ stMaxRecv ss < 2 ^ 63 /\ n < 2 ^ 63 }.
Lemma upTo_conn n ss w : upTo n ss w -> upTo n ss (newConn w).
Proof. intros [A B D E F Z H]. split; assumption. Qed.
Lemma upTo_out n ss w o : upTo n ss w -> upTo n ss (mkDBW (bPriv w) (bPub w) (bDB w) o).
Proof. intros [A B D E F Z H]. split; assumption. Qed.
Lemma stateKey_ne : calcStateKey C fp tp <> [].
Proof. apply (key_ne C). Qed.
Lemma wr_inv (f : keydb -> res keydb) w r w' : wr f w = (r, w') ->
  (exists d, f (bDB w) = Ok d /\ r = Ok tt /\ w' = setDB d w) \/ (isOk r = false /\ w' = w).
Proof.
  unfold wr. destruct (f (bDB w)) as [d|e|] eqn:E; intros H; apply pair_equal_spec in H as [<- <-].
  - left. exists d. auto.
  - right. auto.
  - right. auto.
Qed.
Lemma encKeyG_step n ss w a x w' : upTo n ss w ->
  kLast (bDB w) = 0 \/ stMsgCount ss < n ->
  pubKey (idUid (eFrom a)) = Ok fk -> pubKey (eTo a) = Ok tk ->
  encKeyG C dbw dbKS a ss w = (x, w') ->
  upTo n ss w' /\ bOut w' = bOut w /\ forall sk mk, x = Ok (sk, mk) -> sk = sessionOf ss /\ stMsgCount ss < n /\
    isOk (dbMessageKey (sessionOf ss) true (stMsgCount ss) (bDB w')) = true.
Proof.
  intros U L F T H. unfold encKeyG in H. rewrite F, T in H. do 2 rewrite gb_lift in H. cbn [ksNum ksChain ksMsgKey dbKS] in H. fold (sessionOf ss) in H.
  apply gb_inv in H as [(num & w1 & H1 & H)|[X (r0 & X0 & H)]].
  2: { unfold rd in H. apply pair_equal_spec in H as [_ <-]. split; [exact U|]. split; [reflexivity|]. intros sk mk E. rewrite E in X. discriminate X. }
  unfold rd in H1. apply pair_equal_spec in H1 as [H1 <-]. unfold ceNum, dbSessionR, dbSession in H1.
  destruct (tmin (bySess (sessionOf ss)) (kSess (bDB w))) as [[sid row]|] eqn:TM; [|discriminate H1].
  assert (EXT : forall y w2, (if num <=? stMsgCount ss then
              gdo chainKey <- rd (ceChain (sessionOf ss));
              gdo sp <- glift (pub32 (stSenderPub ss));
              gdo rp <- glift (pub32 (stRecipTemp ss));
              generateMessageKeysG C dbw dbKS (uIdentity (idUid (eFrom a))) (uIdentity (eTo a)) (keHash fk) (keHash tk) chainKey false sp rp (numKeys (eNumKeys a))
            else gret tt) w = (y, w2) -> upTo n ss w2 /\ bOut w2 = bOut w).
  { intros y w2 E. destruct (N.leb_spec num (stMsgCount ss)) as [NL|NL].
    2: { unfold gret in E. apply pair_equal_spec in E as [_ <-]. auto. }
    apply gb_inv in E as [(ck & w3 & E1 & E)|[_ (r0 & _ & E)]]; [|unfold rd in E; apply pair_equal_spec in E as [_ <-]; auto].
    unfold rd in E1. apply pair_equal_spec in E1 as [_ <-]. rewrite gb_lift in E. destruct (pub32 (stSenderPub ss)); try (apply pair_equal_spec in E as [_ <-]; auto).
    rewrite gb_lift in E. destruct (pub32 (stRecipTemp ss)); try (apply pair_equal_spec in E as [_ <-]; auto).
    assert (L0 : kLast (bDB w) = 0).
    { destruct L as [L|LT]; [exact L|]. destruct (ut_num _ _ _ U) as (rh & ck0 & num0 & DS & LT2). unfold dbSession in DS. rewrite TM in DS. cbn [rbind snd] in H1. apply ok_inj in H1.
      assert (srNum row = num0) by congruence. lia. }
    unfold generateMessageKeysG in E. destruct (keyLoop _ _ _ _ _ _) as [[send recv] ck2]. cbn [ksStoreSession dbKS] in E.
    apply wr_inv in E as [(d & E & _ & ->)|[_ ->]]; [|auto]. split; [|reflexivity].
    destruct U as [U1 U2 U3 U4 U5 UN U6]. destruct (addSession_keys _ _ _ _ _ _ _ _ _ _ U2 U3 L0 E TM) as (V1 & V2 & V3 & V4 & V5).
    split; cbn [setDB bDB]; try assumption.
    - unfold dbGetState in *. rewrite V3. exact U1.
    - rewrite V3. exact U4.
    - intros i Hi. rewrite V4. apply U5, Hi.
    - apply V5, UN. }
  apply gb_inv in H as [([] & w2 & H2 & H)|[X (r0 & X0 & H)]].
  2: { apply EXT in H as [V1 V2]. split; [exact V1|]. split; [exact V2|]. intros sk mk E. rewrite E in X. discriminate X. }
  apply EXT in H2 as [V1 V2].
  apply gb_inv in H as [(mk0 & w3 & H3 & H)|[X (r0 & X0 & H)]].
  2: { unfold rd in H. apply pair_equal_spec in H as [_ <-]. split; [exact V1|]. split; [exact V2|]. intros sk mk E. rewrite E in X. discriminate X. }
  unfold rd in H3. apply pair_equal_spec in H3 as [H3 <-]. unfold gret in H. apply pair_equal_spec in H as [<- <-]. split; [exact V1|]. split; [exact V2|].
  intros sk mk E. apply ok_inj, pair_equal_spec in E as [<- _]. split; [reflexivity|].
  assert (K : isOk (dbMessageKey (sessionOf ss) true (stMsgCount ss) (bDB w2)) = true).
  { unfold ceMsgKey in H3. destruct (dbMessageKey _ _ _ _); [reflexivity|discriminate H3|discriminate H3]. }
  split; [|exact K]. destruct (N.lt_ge_cases (stMsgCount ss) n) as [Q|Q]; [exact Q|]. rewrite (ut_keys _ _ _ V1 _ Q) in K. discriminate K.
Qed.
Lemma setState_upTo n s w d : idsOk (kSess (bDB w)) -> idsOk (kKeys (bDB w)) -> idsOk (kStates (bDB w)) ->
  (forall i, n <= i -> isOk (dbMessageKey (sessionOf s) true i (bDB w)) = false) -> announced n (sessionOf s) (bDB w) -> n < 2 ^ 63 -> stSessCount s < 2 ^ 63 -> stMsgCount s < 2 ^ 63 -> stMaxRecv s < 2 ^ 63 ->
  dbSetState (calcStateKey C fp tp) s (bDB w) = Ok d -> upTo n s (setDB d w).
Proof.
  intros U2 U3 U4 U5 UN U6 B1 B2 B3 E. pose proof (kexec_kstep goUnicode (KSetState (calcStateKey C fp tp) s) (bDB w) d E) as K.
  destruct (kstep_states goUnicode (KSetState (calcStateKey C fp tp) s) (bDB w) (calcStateKey C fp tp) U4) as [S1 S2]. rewrite <- K in S1, S2.
  assert (NE := stateKey_ne). apply beq_neq in NE. assert (V : stateValid (calcStateKey C fp tp) s = true).
  { unfold stateValid. rewrite NE. apply N.ltb_lt in B1, B2, B3. rewrite B1, B2, B3. reflexivity. }
  rewrite V, beq_refl in S2. cbn [andb] in S2. assert (SAME : kSess d = kSess (bDB w) /\ kKeys d = kKeys (bDB w)).
  { unfold dbSetState in E. rewrite NE in E. destruct (negb _); [discriminate E|]. destruct (thas _ _); apply ok_inj in E; subst d; split; reflexivity. }
  destruct SAME as [Q1 Q2]. split; cbn [setDB bDB].
  - apply getState_read; assumption.
  - rewrite Q1. exact U2.
  - rewrite Q2. exact U3.
  - exact S1.
  - intros i Hi. rewrite (msgKey_same _ _ _ _ _ Q1 Q2). apply U5, Hi.
  - apply (announced_same _ _ (bDB w)); assumption.
  - tauto.
Qed.
(* Encrypt after the session state is known *)
Definition restG (a : encArgs) (r : encRnd) (nym : bytes) (ss : state) : G dbw bytes :=
  gdo hp <- glift (encHeader C a r ss);
  gdo (sk, mk) <- encKeyG C dbw dbKS a ss;
  let content := if eStatus a =? StatusOK then eContent a else [] in
  if MaxContentLength <? lenN content then gfail "len(content) > MaxContentLength"
  else
    gdo body <- glift (sealBody C mk (rIv r) content (eSigKey a) (rPad r));
    let pre := outer_write (newOuterHeader preHeaderPacket 0 (preheader_write (newPreHeader (dhpub C (rHeaderPriv r))))) true in
    let out := b64enc (pre ++ outer_write (newOuterHeader encryptedHeader 1 hp) true ++ body) in
    if negb (lenN out =? EncodedMsgSize) then gfail "out.Len() != EncodedMsgSize"
    else
      gdo _ <- ksOut dbKS out;
      gdo _ <- ksDelMsgKey dbKS sk true (stMsgCount ss);
      gdo fromKE <- glift (pubKey (idUid (eFrom a)));
      gdo fromPub <- glift (pub32 fromKE);
      gdo toKE <- glift (pubKey (eTo a));
      gdo toPub <- glift (pub32 toKE);
      gdo _ <- ksSetState dbKS (calcStateKey C fromPub toPub)
                 (mkState (stSessCount ss) (u64 (stMsgCount ss + 1)) (stMaxRecv ss) (stRecipTemp ss) (stSenderPub ss)
                          (stNextSender ss) (stNextSeen ss) (stNym ss) (stKeyInit ss));
      gret nym.
Lemma rest_step n ss w0 a r nym x w' : upTo n ss w0 ->
  kLast (bDB w0) = 0 \/ stMsgCount ss < n ->
  pubKey (idUid (eFrom a)) = Ok fk -> pubKey (eTo a) = Ok tk -> bOut w0 = [] -> restG a r nym ss w0 = (x, w') ->
  (isOk x = true /\ stMsgCount ss < n /\ upTo n (advanced ss) w') \/
  (isOk x = false /\ bOut w' = [] /\ upTo n ss w').
Proof.
  intros U L SF ST O H. unfold restG in H. rewrite gb_lift in H.
  destruct (encHeader C a r ss) as [hp|e|]; try (apply pair_equal_spec in H as [<- <-]; right; auto).
  apply gb_inv in H as [([sk mk] & w1 & H1 & H)|[X (r0 & X0 & H)]].
  2: { destruct (encKeyG_step _ _ _ _ _ _ U L SF ST H) as (V1 & V2 & _). right. rewrite V2. auto. }
  destruct (encKeyG_step _ _ _ _ _ _ U L SF ST H1) as (V1 & V2 & V3). destruct (V3 _ _ eq_refl) as (-> & LT & KO). rewrite O in V2. cbv beta iota zeta in H.
  destruct (_ <? _) in H; [apply pair_equal_spec in H as [<- <-]; right; auto|]. rewrite gb_lift in H.
  destruct (sealBody _ _ _ _ _ _) as [body|e|]; try (apply pair_equal_spec in H as [<- <-]; right; auto).
  destruct (negb _) in H; [apply pair_equal_spec in H as [<- <-]; right; auto|]. cbn [ksOut ksDelMsgKey ksSetState dbKS] in H.
  match type of H with gbind _ ?f _ = _ => match goal with |- _ => erewrite (gb_ok _ f) in H by reflexivity end end. cbv beta in H.
  match type of H with gbind _ _ ?v = _ => set (w2 := v) in H end.
  assert (U2 : upTo n ss w2) by (apply upTo_out, V1).
  assert (KO2 : isOk (dbMessageKey (sessionOf ss) true (stMsgCount ss) (bDB w2)) = true) by exact KO. clearbody w2. clear V1 V2 V3 H1 KO.
  assert (BD := ut_counts _ _ _ U2). destruct BD as (B1 & B2 & B3).
  apply msgKey_ok in KO2 as (sid & row & TM & SI & _).
  destruct (dbDelMessageKey (sessionOf ss) true (stMsgCount ss) (bDB w2)) as [d|e|] eqn:DEL.
  2,3: unfold dbDelMessageKey in DEL; rewrite TM, SI in DEL; discriminate DEL.
  rewrite (gb_ok _ _ _ tt (setDB d w2)) in H by (unfold wr; rewrite DEL; reflexivity). cbv beta in H.
  assert (U3 : upTo n ss (setDB d w2)).
  { destruct U2 as [A1 A2 A3 A4 A5 AN A6]. destruct (delMessageKey_keys _ _ _ _ _ A3 DEL) as (D1 & D2 & D3 & _ & D5). split; cbn [setDB bDB]; try assumption.
    - unfold dbGetState in *. rewrite D2. exact A1.
    - rewrite D1. exact A2.
    - rewrite D2. exact A4.
    - intros i Hi. specialize (A5 i Hi). destruct (isOk (dbMessageKey (sessionOf ss) true i d)) eqn:Q; [|reflexivity]. apply D5 in Q. congruence.
    - apply (announced_same _ _ (bDB w2)); assumption. }
  rewrite gb_lift, SF, gb_lift, FP, gb_lift, ST, gb_lift, TP in H.
  replace (u64 (stMsgCount ss + 1)) with (stMsgCount ss + 1) in H by (unfold u64; rewrite N.mod_small; [reflexivity|lia]). fold (advanced ss) in H.
  assert (NE := stateKey_ne). apply beq_neq in NE.
  destruct (dbSetState (calcStateKey C fp tp) (advanced ss) (bDB (setDB d w2))) as [d2|e|] eqn:SET.
  2,3: unfold dbSetState in SET; rewrite NE in SET;
       replace (sqlInt (stSessCount (advanced ss)) && sqlInt (stMsgCount (advanced ss)) && sqlInt (stMaxRecv (advanced ss))) with true in SET
         by (symmetry; unfold sqlInt; cbn [advanced stSessCount stMsgCount stMaxRecv]; rewrite !andb_true_iff, !N.ltb_lt; lia);
       cbn [negb] in SET; destruct (thas _ _) in SET; discriminate SET.
  rewrite (gb_ok _ _ _ tt (setDB d2 (setDB d w2))) in H by (unfold wr; rewrite SET; reflexivity). cbv beta in H. unfold gret in H.
  apply pair_equal_spec in H as [<- <-]. left. split; [reflexivity|]. split; [exact LT|].
  destruct U3 as [W1 W2 W3 W4 W5 WN W6].
  apply (setState_upTo n (advanced ss) (setDB d w2) d2); try assumption; cbn [advanced stSessCount stMsgCount stMaxRecv]; lia.
Qed.
(* the state with a proposal for the next session *)
Definition proposed (ss : state) (k : keyEntry) : state :=
  mkState (stSessCount ss) (stMsgCount ss) (stMaxRecv ss) (stRecipTemp ss) (stSenderPub ss) (Some k) (stNextSeen ss) (stNym ss) (stKeyInit ss).
Lemma proposed_upTo n ss w a r x w' : upTo n ss w -> eCleanup a < 2 ^ 63 -> rSessPriv r <> [] -> stMsgCount ss <= n ->
  setNextSenderSessionPubG C dbw dbKS ss (calcStateKey C fp tp) (rSessPriv r) (eCleanup a) w = (x, w') ->
  exists k, x = Ok (k, proposed ss k) /\ upTo n (proposed ss k) w' /\ bOut w' = bOut w.
Proof.
  intros U CL PR LE H. unfold setNextSenderSessionPubG, addSessionKeyG in H. cbn [ksAddSKey ksSetState dbKS] in H. set (k := initDHKey C (rSessPriv r)) in *. exists k. fold (proposed ss k) in H.
  assert (V : skeyValid (keHash k) (keJSON k) (b64enc (rSessPriv r)) (eCleanup a) = true).
  { unfold skeyValid. rewrite keJSON_nonempty. replace (beq (keHash k) []) with false by (symmetry; apply beq_neq, sha_ne).
    replace (beq (b64enc (rSessPriv r)) []) with false by (symmetry; apply beq_neq, b64enc_ne, PR). apply N.ltb_lt in CL. rewrite CL. reflexivity. }
  pose proof (addSessionKey_ok _ _ _ _ (bDB w) V) as E1. set (d1 := setSKeys _ _ _) in E1.
  rewrite (gb_ok _ _ _ tt (setDB d1 w)) in H by (unfold wr; rewrite E1; reflexivity). cbv beta zeta in H.
  destruct U as [A1 A2 A3 A4 A5 AN (A6 & A7 & A8)]. assert (NE := stateKey_ne). apply beq_neq in NE.
  destruct (dbSetState (calcStateKey C fp tp) (proposed ss k) (bDB (setDB d1 w))) as [d2|e|] eqn:SET.
  2,3: unfold dbSetState in SET; rewrite NE in SET;
       replace (sqlInt (stSessCount (proposed ss k)) && sqlInt (stMsgCount (proposed ss k)) && sqlInt (stMaxRecv (proposed ss k))) with true in SET
         by (symmetry; unfold sqlInt; cbn [proposed stSessCount stMsgCount stMaxRecv]; rewrite !andb_true_iff, !N.ltb_lt; lia);
       cbn [negb] in SET; destruct (thas _ _) in SET; discriminate SET.
  rewrite (gb_ok _ _ _ tt (setDB d2 (setDB d1 w))) in H by (unfold wr; rewrite SET; reflexivity). cbv beta in H. unfold gret in H.
  apply pair_equal_spec in H as [<- <-]. split; [reflexivity|]. split; [|reflexivity].
  apply (setState_upTo n (proposed ss k) (setDB d1 w) d2); try assumption; cbn [proposed stSessCount stMsgCount stMaxRecv]; lia.
Qed.
(* the coin is thrown for messages without an error status (encrypt.go:196-213) *)
Definition flips (x : encArgs * encRnd) : bool := negb (eStatus (fst x) =? StatusError) && rCoin (snd x).
(* one message *)
Lemma send_step n ss w a r x w' : upTo n ss w -> sendTo a r -> flips (a, r) = false \/ stNextSender ss <> None \/ stMsgCount ss < n -> stMsgCount ss <= n ->
  encryptDB C a r (newConn w) = (x, w') ->
  exists ss1, (ss1 = ss \/ exists k, ss1 = proposed ss k) /\
    (flips (a, r) = true -> stNextSender ss1 <> None) /\ (stNextSender ss <> None -> ss1 = ss) /\
  ((isOk x = true /\ stMsgCount ss < n /\ upTo n (advanced ss1) w') \/
   (isOk x = false /\ bOut w' = [] /\ upTo n ss1 w')).
Proof.
  intros U0 S CN LE H. pose proof (upTo_conn _ _ _ U0) as U. assert (L : kLast (bDB (newConn w)) = 0) by reflexivity.
  assert (O : bOut (newConn w) = []) by reflexivity. set (w0 := newConn w) in *. clearbody w0. clear U0 w.
  change (encryptDB C a r w0) with (gbind (encStateG C dbw dbKS a r) (fun '(nym, ss) => restG a r nym ss) w0) in H.
  assert (ES : exists nym ss1 w1, encStateG C dbw dbKS a r w0 = (Ok (nym, ss1), w1) /\ (ss1 = ss \/ exists k, ss1 = proposed ss k) /\
    (flips (a, r) = true -> stNextSender ss1 <> None) /\ (stNextSender ss <> None -> ss1 = ss) /\
    upTo n ss1 w1 /\ bOut w1 = [] /\ (kLast (bDB w1) = 0 \/ stMsgCount ss1 < n)).
  { unfold encStateG. rewrite (se_from _ _ S), (se_to _ _ S). rewrite gb_lift, gb_lift, FP, gb_lift, gb_lift, TP. cbn [ksGetState dbKS].
    replace (eStatus a =? StatusReset) with false by (symmetry; apply N.eqb_neq, S).
    rewrite (gb_ok _ _ _ (Some ss) w0) by (unfold rd; rewrite (ut_state _ _ _ U); reflexivity). cbv beta iota.
    destruct (N.eqb_spec (eStatus a) StatusError) as [ER|ER].
    { do 3 eexists. split; [reflexivity|]. split; [left; reflexivity|]. split; [|split; [reflexivity|auto]]. unfold flips. cbn [fst snd]. rewrite ER. discriminate. }
    destruct (stNextSender ss) as [own|] eqn:NX.
    { do 3 eexists. split; [reflexivity|]. split; [left; reflexivity|]. split; [rewrite NX; discriminate|]. split; [reflexivity|]. auto. }
    assert (FL : flips (a, r) = rCoin r) by (unfold flips; cbn [fst snd]; apply N.eqb_neq in ER; rewrite ER; reflexivity). rewrite FL in *.
    destruct (rCoin r) eqn:CO.
    2: { do 3 eexists. split; [reflexivity|]. split; [left; reflexivity|]. split; [discriminate|]. split; [reflexivity|]. auto. }
    destruct CN as [CN|[CN|CN]]; [discriminate CN|congruence|].
    destruct (setNextSenderSessionPubG C dbw dbKS ss (calcStateKey C fp tp) (rSessPriv r) (eCleanup a) w0) as [y w1] eqn:SET.
    destruct (proposed_upTo _ _ _ _ _ _ _ U (se_clean _ _ S) (se_priv _ _ S) LE SET) as (k & -> & V & VO).
    rewrite (gb_ok _ _ _ _ _ SET). cbv beta iota. exists (stNym ss), (proposed ss k), w1. split; [reflexivity|]. split; [right; exists k; reflexivity|].
    split; [discriminate|]. split; [congruence|]. split; [exact V|]. split; [congruence|]. right. exact CN. }
  destruct ES as (nym & ss1 & w1 & E & C1 & C2 & C3 & V & VO & VL). rewrite (gb_ok _ _ _ _ _ E) in H. cbv beta iota in H.
  exists ss1. split; [exact C1|]. split; [exact C2|]. split; [exact C3|].
  assert (MC : stMsgCount ss1 = stMsgCount ss) by (destruct C1 as [->|[k ->]]; reflexivity). rewrite <- MC.
  apply (rest_step n ss1 w1 a r nym x w' V VL (se_from _ _ S) (se_to _ _ S) VO H).
Qed.
(* the first message of a session: the session is stored with the keys 0 .. n-1 *)
Lemma addSession_new sk rh ck send recv d d' : idsOk (kSess d) -> idsOk (kKeys d) ->
  (forall row, In row (kKeys d) -> krSess (snd row) < nextId (kSess d)) -> dbSession sk d = None ->
  addSession sk rh ck send recv d = Ok d' ->
  idsOk (kSess d') /\ idsOk (kKeys d') /\ kStates d' = kStates d /\ dbSession sk d' = Some (rh, ck, lenN send) /\
  forall i, lenN send <= i -> isOk (dbMessageKey sk true i d') = false.
Proof.
  intros I1 I2 OLD NS E. unfold addSession in E. destruct (beq sk []); [discriminate|]. destruct (beq rh []); [discriminate|]. destruct (beq ck []); [discriminate|].
  destruct (negb _) eqn:LN; [discriminate|]. apply negb_false_iff, N.eqb_eq in LN. unfold dbSession in NS.
  destruct (tmin (bySess sk) (kSess d)) as [[? ?]|] eqn:TM; [discriminate NS|]. cbn [setSess kKeys kLast] in E.
  destruct (insKeys _ _ _ _ _ _) as [t l] eqn:IK. apply ok_inj in E. subst d'. cbn [setKeys setSess kSess kKeys kStates].
  assert (TT : t = fst (insKeys (nextId (kSess d)) 0 send recv (kKeys d) (nextId (kSess d)))) by (rewrite IK; reflexivity).
  assert (TN : tmin (bySess sk) (tins (mkSR sk rh ck (lenN send)) (kSess d)) = Some (nextId (kSess d), mkSR sk rh ck (lenN send))).
  { rewrite tmin_tins by exact I1. rewrite TM. unfold bySess. cbn [srKey]. rewrite beq_refl. reflexivity. }
  split; [apply idsOk_tins, I1|]. split; [rewrite TT; apply insKeys_ids, I2|]. split; [reflexivity|]. split.
  - unfold dbSession. cbn [setKeys setSess kSess]. rewrite TN. reflexivity.
  - intros i Hi. destruct (isOk _) eqn:Q; [|reflexivity]. apply msgKey_ok in Q as (sid & row & T & _ & R). cbn [setKeys setSess kSess kKeys] in T, R.
    rewrite TN in T. assert (sid = nextId (kSess d)) by congruence. subst sid. elim R. rewrite TT, insKeys_read by assumption.
    assert (R0 : readKey (nextId (kSess d)) i true (kKeys d) = None).
    { unfold readKey. rewrite tmin_none_intro; [reflexivity|]. intros s Hs. specialize (OLD s Hs). unfold byKey. destruct (N.eqb_spec (krSess (snd s)) (nextId (kSess d))); [lia|reflexivity]. }
    rewrite R0. destruct (_ && _); [|reflexivity]. apply nth_error_None. unfold lenN in Hi. lia.
Qed.
Record starts (a : encArgs) (r : encRnd) (w : dbw) : Prop := {
  st_from : pubKey (idUid (eFrom a)) = Ok fk;
  st_to : pubKey (eTo a) = Ok tk;
  st_none : eStatus a = StatusReset \/ dbGetState (calcStateKey C fp tp) (bDB w) = Ok None;
  st_ki : exists rt nym rp, mget (uIdentity (eTo a)) (bPub w) = Some (rt, nym) /\ pub32 rt = Ok rp /\ keHash rt = hashText C rp /\
          dbSession (calcKey C (keHash fk) (keHash tk) (hashText C (dhpub C (rSessPriv r))) (keHash rt)) (bDB w) = None;
  st_sids : idsOk (kSess (bDB w));
  st_kids : idsOk (kKeys (bDB w));
  st_stids : idsOk (kStates (bDB w));
  st_rows : forall row, In row (kKeys (bDB w)) -> krSess (snd row) < nextId (kSess (bDB w));
  st_n : 1 <= numKeys (eNumKeys a) < 2 ^ 63 }.
Lemma first_step a r w nym w' : starts a r w -> encryptDB C a r (newConn w) = (Ok nym, w') ->
  exists ss, stMsgCount ss = 1 /\ stNextSender ss = None /\ upTo (numKeys (eNumKeys a)) ss w'.
Proof.
  intros [F T SN (rt & nym0 & rp & KI & RP & KH & FR) I1 I2 I3 RW LN] H.
  change (encryptDB C a r (newConn w)) with (gbind (encStateG C dbw dbKS a r) (fun '(nym, ss) => restG a r nym ss) (newConn w)) in H.
  apply gb_inv in H as [([nym1 ss] & w1 & H1 & H)|[X _]]; [|discriminate X]. cbv beta iota in H.
  unfold encStateG in H1. rewrite F, T in H1. rewrite gb_lift, gb_lift, FP, gb_lift, gb_lift, TP in H1. cbn [ksGetState ksPubKE ksSetState dbKS] in H1.
  rewrite (gb_ok _ _ _ None (newConn w)) in H1.
  2: { destruct (N.eqb_spec (eStatus a) StatusReset) as [E|E]; [reflexivity|]. destruct SN as [SN|SN]; [contradiction|]. unfold rd.
       change (bDB (newConn w)) with (setLast 0 (bDB w)). unfold dbGetState in *. cbn [setLast kStates]. rewrite SN. reflexivity. }
  cbv beta iota in H1. rewrite (gb_ok _ _ _ (rt, nym0) (newConn w)) in H1 by (cbn [newConn bPub]; rewrite KI; reflexivity). cbv beta iota zeta in H1.
  apply gb_inv in H1 as [([] & w2 & H2 & H1)|[X _]]; [|discriminate X]. unfold addSessionKeyG in H2. cbn [ksAddSKey dbKS] in H2.
  apply wr_inv in H2 as [(d2 & E2 & _ & ->)|[X _]]; [|discriminate X].
  assert (D2 : kSess d2 = kSess (bDB w) /\ kKeys d2 = kKeys (bDB w) /\ kStates d2 = kStates (bDB w)).
  { unfold dbAddSessionKey in E2. do 4 (destruct (_ : bool) in E2; [discriminate E2|]). apply ok_inj in E2. subst d2. repeat split. }
  destruct D2 as (D21 & D22 & D23). rewrite gb_lift in H1. destruct (priv32 fk _) as [fpv|?|]; [|discriminate H1|discriminate H1].
  apply gb_inv in H1 as [([] & w3 & H3 & H1)|[X _]]; [|discriminate X].
  unfold rootKeyAgreementSenderG in H3. rewrite gb_lift, FP, gb_lift, initDHKey_pub32, gb_lift, TP, gb_lift, RP, gb_lift in H3.
  destruct (checkKeys _ _ _ _ _); [|discriminate H3|discriminate H3]. rewrite gb_lift in H3.
  destruct (ecdh _ _ _ _); [|discriminate H3|discriminate H3]. rewrite gb_lift in H3.
  destruct (ecdh _ _ _ _); [|discriminate H3|discriminate H3]. rewrite gb_lift in H3.
  destruct (ecdh _ _ _ _); [|discriminate H3|discriminate H3].
  unfold generateMessageKeysG in H3. rewrite keyLoop_spec in H3. cbn [ksStoreSession dbKS] in H3.
  apply wr_inv in H3 as [(d3 & E3 & _ & ->)|[X _]]; [|discriminate X]. cbn [setDB bDB bPriv bPub bOut] in *.
  set (ss0 := mkState 0 0 0 rt (initDHKey C (rSessPriv r)) None None nym0 true) in *.
  assert (SK : sessionOf ss0 = calcKey C (keHash fk) (keHash tk) (hashText C (dhpub C (rSessPriv r))) (hashText C rp)).
  { unfold sessionOf. cbn [ss0 stSenderPub stRecipTemp]. rewrite KH. reflexivity. }
  rewrite <- SK in E3. rewrite KH, <- SK in FR.
  match type of E3 with addSession _ _ _ ?l _ _ = _ => assert (LEN : lenN l = numKeys (eNumKeys a)) by (unfold keysFor, lenN; rewrite map_length, seq_length; lia) end.
  apply addSession_new in E3.
  2-3: rewrite ?D21, ?D22; assumption.
  2: { rewrite D21, D22. exact RW. }
  2: { unfold dbSession in *. rewrite D21. exact FR. }
  destruct E3 as (J1 & J2 & J3 & J4 & J5). rewrite LEN in J4, J5.
  apply gb_inv in H1 as [([] & w4 & H4 & H1)|[X _]]; [|discriminate X].
  apply wr_inv in H4 as [(d4 & E4 & _ & ->)|[X _]]; [|discriminate X]. unfold gret in H1. apply pair_equal_spec in H1 as [H1 <-]. apply ok_inj, pair_equal_spec in H1 as [_ <-].
  set (w3 := setDB d3 (setDB d2 (newConn w))) in *.
  assert (U : upTo (numKeys (eNumKeys a)) ss0 (setDB d4 w3)).
  { apply setState_upTo; try assumption; try lia; try (cbn [ss0 stSessCount stMsgCount stMaxRecv]; lia).
    - cbn [w3 setDB bDB]. rewrite J3, D23. exact I3.
    - unfold announced. do 3 eexists. split; [exact J4|lia]. }
  apply (rest_step _ _ _ _ _ _ _ _ U) in H; [| |exact F|exact T|reflexivity].
  - destruct H as [(_ & _ & V)|(X & _)]; [|discriminate X]. exists (advanced ss0). split; [reflexivity|]. split; [reflexivity|exact V].
  - right. cbn [ss0 stMsgCount]. lia.
Qed.
End Limit.
