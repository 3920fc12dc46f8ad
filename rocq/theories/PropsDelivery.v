(* C131: from the sender's Encrypt to the receiver's message list. *)
From Verif Require Import Base Base64Model Base64Proofs CodecModel CodecProofs JsonModel Maps IdentityModel IdentityProofs SqlModel SqlProofs MsgDBModel MsgDBProofs MsgDBSpec PropsMsgDB CryptoModel
  MixModel MixProofs MixClientModel CtrlModel PipeModel JourneyModel PropsIncoming PropsMix JourneyProofs PropsJourney PipeProofs PropsPipe.
From Verif Require Import StoreModel KeysModel MsgFormatModel HeaderModel ProtoModel ProtoProofs ConvModel ConvSteps ConvInv ConvRecv ConvMain ConvEnabled ConvTrack ConvToy ConvExample ConvLimit PropsConv.
Delimit Scope string_scope with string.
Local Open Scope N_scope.

Lemma b64dec_clean_len s b : b64dec_clean s = Some b -> 4 * lenN b <= 3 * lenN s /\ 3 * lenN s <= 4 * lenN b + 8.
Proof.
  revert b; induction s as [|x|x y|x y z|c0 c1 c2 c3 s IH] using list_ind4; intros b; cbn [b64dec_clean]; try discriminate.
  - intros X. assert (b = []) as -> by congruence. rewrite (lenN_nil N). lia.
  - destruct (b64val c0) as [v0|]; [|discriminate]. destruct (b64val c1) as [v1|]; [|discriminate]. destruct (c2 =? padchar).
    { destruct ((c3 =? padchar) && _) eqn:Q; [|discriminate]. destruct s; [|rewrite andb_false_r in Q; discriminate]. intros X; inversion X; subst. rewrite !lenN_cons, (lenN_nil N). lia. }
    destruct (b64val c2) as [v2|]; [|discriminate]. destruct (c3 =? padchar).
    { destruct s; [|discriminate]. intros X; inversion X; subst. rewrite !lenN_cons, (lenN_nil N). lia. }
    destruct (b64val c3) as [v3|]; [|discriminate]. destruct (b64dec_clean s) as [t|]; [|discriminate]. destruct (IH t eq_refl). intros X; inversion X; subst. rewrite !lenN_cons. lia.
Qed.
Lemma strip_b64 b : strip_nl (b64enc b) = b64enc b.
Proof. unfold strip_nl. apply filter_id, b64enc_no_nl. Qed.
(* every message under way is base64 text of 65536 characters *)
Definition wireOk (m : ConvModel.sent) : Prop := exists x, ConvModel.sWire m = b64enc x /\ lenN (b64enc x) = 65536.
Lemma wires C P c0 c : reach C P c0 c -> forall p, Forall wireOk (cNet c p).
Proof.
  induction 1 as [S|c c' R IH S]; intros p; [rewrite (st_net C P c0 S); constructor|]. destruct S as [q a r c nym w SO NM FR E|q ra c l1 m l2 res w l NT RO FR E L|q c l1 m l2 NT]; cbn [cNet].
  - unfold upd. destruct (Bool.eqb q p); [|apply IH]. apply Forall_app. split; [apply IH|]. constructor; [|constructor].
    unfold run in E. apply encrypt_ok in E as (ss & w1 & w2 & hp & sk & mk & body & fk & tk & E). exists (rawMsg C (rHeaderPriv r) hp body). cbn [ConvModel.sWire].
    split; [|exact (eo_size _ _ _ _ _ _ _ _ _ _ _ _ _ _ _ E)]. rewrite (encrypt_out _ _ _ _ _ _ _ _ _ _ _ _ _ _ _ E). reflexivity.
  - unfold upd. destruct (Bool.eqb (negb q) p) eqn:B; [|apply IH]. apply Bool.eqb_prop in B. subst p. pose proof (IH (negb q)) as F. rewrite NT in F. apply Forall_app in F as [F1 F2].
    destruct L as [->|[_ ->]]; apply Forall_app; split; try assumption. inversion F2; assumption.
  - unfold upd. destruct (Bool.eqb q p) eqn:B; [|apply IH]. apply Bool.eqb_prop in B. subst p. pose proof (IH q) as F. rewrite NT in F. apply Forall_app in F as [F1 F2].
    apply Forall_app; split; [assumption|]. inversion F2; assumption.
Qed.
Lemma wire_raw m raw : wireOk m -> b64dec (ConvModel.sWire m) = Some raw -> wfb raw /\ 4096 <= lenN raw /\ lenN raw <= 65536.
Proof.
  intros (x & -> & L) D. split; [eapply wfb_b64dec; eassumption|]. unfold b64dec in D. rewrite strip_b64 in D. apply b64dec_clean_len in D. rewrite L in D. lia.
Qed.
Lemma receive_raw C ra x y st raw : b64dec x = Some raw -> b64dec y = Some raw -> run (receive C ra x) st = run (receive C ra y) st.
Proof. intros A B. unfold run, receive. rewrite A, B. reflexivity. Qed.
Lemma receive_decodes C ra x st r w : run (receive C ra x) st = (Ok r, w) -> exists raw, b64dec x = Some raw.
Proof. unfold run, receive. destruct (b64dec x) as [raw|]; [eauto|intros H; discriminate H]. Qed.
Lemma receive_far C ra x st w : run (receive C ra x) st = (Err "msg: requested number of message keys too large"%string, w) -> exists raw, b64dec x = Some raw.
Proof. unfold run, receive. destruct (b64dec x) as [raw|]; [eauto|intros H; discriminate H]. Qed.

(* the queue after an envelope was opened *)
Lemma queue_set U db i my c msg env x : Inv U db -> getInQueue db = Ok (Some (i, my, c, msg, env)) ->
  exists db1, dexec U (DSetInQueue i x) db = Ok db1 /\ getInQueue db1 = Ok (Some (i, my, c, x, false)) /\ dbMsgs db1 = dbMsgs db /\ dbNyms db1 = dbNyms db /\ dbContacts db1 = dbContacts db.
Proof.
  intros V G. destruct (getInQueue_row U db i my c msg env V G) as (r & T & TG & Q & _ & _ & QC). eexists. split; [reflexivity|]. split; [|repeat split].
  pose proof (iv_in _ _ V) as (OK & _). unfold getInQueue. cbn [withIn dbIn]. rewrite tmin_find in T by exact OK.
  rewrite tmin_find by (unfold idsOk; rewrite tupd_ids; exact OK). destruct (dbIn db) as [|[j a] t]; [discriminate T|]. cbn [find] in T.
  assert (j = i) as -> by congruence. assert (a = r) as -> by congruence. unfold tupd. cbn [map find fst snd]. rewrite N.eqb_refl. cbn [iMy iContact iMsg iEnv].
  change (qNymMapped (iMy r) (withIn _ db)) with (qNymMapped (iMy r) db). rewrite Q. cbn [rbind].
  change (qContactMapped (iMy r) (iContact r) (withIn _ db)) with (qContactMapped (iMy r) (iContact r) db). rewrite QC. reflexivity.
Qed.
(* a sender that is mapped and not blocked, known or found on the key server: the last step succeeds *)
Lemma remove_ok U db i r my sender text drop u k : Inv U db -> tget i (dbIn db) = Some r -> qNymMapped (iMy r) db = Ok my -> mapped U sender = true ->
  qNymUID my db = Ok u -> qContactUID u sender db = Ok k -> exists db', dexec U (DRemoveInQueue i text sender drop) db = Ok db'.
Proof.
  intros V T Q Ms QU QC. assert (iMy r = u) as E.
  { assert (A : uidOf my db = Some u) by (unfold uidOf; rewrite QU; reflexivity). assert (B : uidOf my db = Some (iMy r)).
    { apply (uidOf_In U my db (iMy r) V). unfold qNymMapped in Q. destruct (tget (iMy r) (dbNyms db)) as [n|] eqn:TN; [|discriminate Q]. exists n. split; [apply tget_In, TN|congruence]. }
    congruence. }
  cbn [dexec]. unfold removeInQueue. rewrite Ms. cbn [need rbind]. rewrite T. cbn [fromOpt rbind]. rewrite E, QC. cbn [rbind]. rewrite <- E, Q. cbn [rbind]. eexists. reflexivity.
Qed.
(* the sender is on the white or gray list, or unknown and found by the lookup *)
Definition welcome (my sender : bytes) (lookup : bool) (db : msgdb) : Prop := match onList my sender db with None => lookup = true | Some t => t < 2 end.
Lemma last_step U M ops e i my c msg sender text : let db := drun U ops emptyDB in
  getInQueue db = Ok (Some (i, my, c, msg, false)) -> ieDec e = DGot sender text -> sender <> [] -> mapped U my = true -> mapped U sender = true ->
  welcome my sender (ieLookup e) db -> exists db', inBody U M e i my c msg false db = (db', true).
Proof.
  intros db G D NE Mm Ms KN. assert (V : Inv U db) by apply Inv_drun, Inv_empty. destruct (getInQueue_row U db i my c msg false V G) as (r & _ & T & Q & _).
  assert (UU : exists u, qNymUID my db = Ok u).
  { assert (B : uidOf my db = Some (iMy r)).
    { apply (uidOf_In U my db (iMy r) V). unfold qNymMapped in Q. destruct (tget (iMy r) (dbNyms db)) as [n|] eqn:TN; [|discriminate Q]. exists n. split; [apply tget_In, TN|congruence]. }
    unfold uidOf in B. destruct (qNymUID my db) as [u| |]; [eauto|discriminate B|discriminate B]. }
  destruct UU as [u QU]. unfold inBody. rewrite D, (isNil_not _ NE).
  assert (CS : cstate my sender db = match tmin (fun _ x => isContact u sender x) (dbContacts db) with Some (_, x) => Some (cUnmapped x, cFull x, cBlocked x) | None => None end).
  { unfold cstate, uidOf. rewrite QU. reflexivity. }
  unfold welcome, onList in KN. rewrite CS in KN. unfold getContact. rewrite Mm, Ms. cbn [need rbind]. rewrite QU. cbn [rbind]. unfold qContactUID in *.
  destruct (tmin (fun _ x => isContact u sender x) (dbContacts db)) as [[k x]|] eqn:TM.
  - pose proof (iv_contacts _ _ V) as (_ & F & _). rewrite Forall_forall in F. apply tmin_some in TM as TI. destruct TI as [TI _]. destruct (F _ TI) as (_ & _ & _ & NN). cbn [snd] in NN.
    replace (cBlocked x <=? 2) with true by (symmetry; apply N.leb_le; lia). rewrite (isNil_not _ NN).
    assert (X2 : (cBlocked x =? BlackList) = false) by (apply N.eqb_neq; unfold BlackList; lia). rewrite X2.
    destruct (remove_ok U db i r my sender text false u k V T Q Ms QU) as [db' E]; [unfold qContactUID; rewrite TM; reflexivity|]. unfold tryOp. rewrite E. eauto.
  - cbn [isNil]. rewrite KN.
    assert (GC : getContact U my sender db = Ok ([], [], 0)) by (unfold getContact; rewrite Mm, Ms; cbn [need rbind]; rewrite QU; cbn [rbind]; rewrite TM; reflexivity).
    assert (CA : exists db1, contactAdd U my sender [] GrayList true db = Ok db1 /\ dexec U (DAddContact my sender sender [] 0) db = Ok db1).
    { unfold contactAdd. rewrite (mapped_imap _ _ Mm), (mapped_imap _ _ Ms). cbn [rbind]. rewrite GC. cbn [rbind isNil negb]. unfold cAdd. rewrite (mapped_imap _ _ Ms). cbn [rbind]. rewrite GC. cbn [rbind isNil negb andb].
      cbn [dexec]. unfold addContact. rewrite Mm, Ms, (isNil_not _ NE), (mapped_imap _ _ Ms). cbn [need negb rbind]. rewrite beq_refl. cbn [need rbind]. rewrite QU. cbn [rbind].
      destruct (thas _ _); eexists; split; reflexivity. }
    destruct CA as (db1 & CA & AC). rewrite CA.
    assert (V1 : Inv U db1) by (eapply Inv_dexec; eassumption). pose proof (cstate_dexec U _ _ _ my sender V AC) as C1. cbn [decide] in C1. rewrite !beq_refl in C1. cbn [andb] in C1.
    assert (T1 : dbIn db1 = dbIn db /\ dbNyms db1 = dbNyms db).
    { cbn [dexec] in AC. unfold addContact in AC. repeat (let E := fresh in destruct (need _ _) eqn:E in AC; try discriminate AC; cbn [rbind] in AC). inv1 AC. inv1 AC. inv1 AC. destruct (thas _ _); apply Ok_eq in AC; subst db1; split; reflexivity. }
    destruct T1 as [T1 T2]. assert (QU1 : qNymUID my db1 = Ok u) by (unfold qNymUID in *; rewrite T2; exact QU).
    unfold cstate, uidOf in C1. rewrite QU1 in C1. destruct (tmin (fun _ x => isContact u sender x) (dbContacts db1)) as [[k x]|] eqn:TM1; [|discriminate C1].
    destruct (remove_ok U db1 i r my sender text false u k V1) as [db' E]; auto.
    + rewrite T1. exact T.
    + unfold qNymMapped in *. rewrite T2. exact Q.
    + unfold qContactUID. rewrite TM1. reflexivity.
    + unfold tryOp. rewrite E. eauto.
Qed.
Lemma welcome_set my sender lk db db1 : dbNyms db1 = dbNyms db -> dbContacts db1 = dbContacts db -> welcome my sender lk db -> welcome my sender lk db1.
Proof. intros A B. unfold welcome, onList, cstate, uidOf, qNymUID. rewrite A, B. auto. Qed.
Lemma openEnvelope_account U M my c msg db db' pk sv sc a b d a' b' d' :
  getAccount U my c db = Ok (pk, sv, sc, a, b, d) -> getAccount U my c db' = Ok (pk, sv, sc, a', b', d') -> openEnvelope U M my c msg db' = openEnvelope U M my c msg db.
Proof. intros A B. unfold openEnvelope. destruct (b64dec msg) as [m|]; [|reflexivity]. cbn [fromOpt rbind]. rewrite A, B. reflexivity. Qed.

(* One round of the loop of procInQueue for the oldest entry; mutecrypt, if it is called, gets the text of the entry. *)
Definition inRound (U : Unicode) (M : MixCrypto) (ra : decArgs) (st : store) (lookup : bool) (db : msgdb) : msgdb * bool :=
  match getInQueue db with
  | Ok (Some (i, my, c, msg, env)) => inBody U M (mkIev (cryptDecrypt M ra st msg) lookup) i my c msg env db
  | _ => (db, false)
  end.

(* C131.  A message that one of two parties has encrypted is under way.  It is put into an envelope for a nym address of the
   receiver, sent through the mix and fetched from the account server; in the receiver's database it is the oldest entry of
   the queue.  After two rounds of the loop (the envelope is opened, the message is decrypted and stored) the receiver has one
   message more from the sender, and its text is what was encrypted. *)
Theorem C131_delivered_partial : forall U (M : MixCrypto) P c0 cv p ra l1 m l2 db0 my c privkey server sv secret aMin aMax aLast
    mixes expire single mn mx now0 rnd apriv anonce mixto nymaddress cacert minD maxD token now1 date revoke priv nonce lookup now2 epriv from0 date2,
  (* the conversation, the message and the keys of the receiver; see C14_decrypts_partial *)
  reach M P c0 cv -> cNet cv (negb p) = l1 ++ m :: l2 -> recvOk M P p ra -> fresh M [dPriv ra] (cUsed cv) -> noColl M P (dPriv ra :: cUsed cv) ->
  inReach ra m (cStore cv p) -> plainLine (pName (P (negb p))) ->
  (* account, nym address, token, addresses and times; see C131_transport *)
  getAccount U my c db0 = Ok (privkey, server, secret, aMin, aMax, aLast) -> server = sv ++ MuteSystemDomain -> wfb sv -> no_nl sv ->
  newNymAddress U M mixes secret expire single mn mx my (dropN 32 privkey) server now0 rnd apriv anonce = Ok (mixto, nymaddress) ->
  int64ok expire -> int32ok mn -> int32ok mx -> rand32 anonce -> Forall (mixOk M lookup) mixes ->
  wfb token -> token <> [] -> token <> [0] -> lenN token + lenN nymaddress <= 60000 ->
  int32ok minD -> int32ok maxD -> rand32 revoke -> rand32 nonce -> dateOk date -> wfb cacert -> lenN cacert < 2 ^ 20 ->
  (now1 <= expire)%Z -> (now2 <= expire)%Z -> no_nl from0 -> dateOk date2 ->
  exists env mail mail2 out,
    protoCreate M cacert minD maxD (b64enc token) nymaddress (ConvModel.sWire m) now1 date revoke priv nonce = Ok env /\
    (forall e, protoDeliver env e = Ok (mixto, mail, deliver (createOut mail mixto revoke 587 [] (Some cacert)) e)) /\
    mixServer M lookup now2 epriv from0 date2 mail = Ok (mail2, hexenc (dropN 32 privkey) ++ [64] ++ server) /\
    fetchMessage mail2 = Ok out /\
    forall ops i aMin' aMax' aLast' lk, let db := drun U ops emptyDB in let sender := pName (P (negb p)) in
      getInQueue db = Ok (Some (i, my, c, b64enc out, true)) -> getAccount U my c db = Ok (privkey, server, secret, aMin', aMax', aLast') ->
      mapped U my = true -> mapped U sender = true -> welcome my sender lk db ->
      exists db1 db2 k row, inRound U M ra (cStore cv p) lk db = (db1, true) /\ inRound U M ra (cStore cv p) lk db1 = (db2, true) /\
        from my sender db2 = from my sender db ++ [(k, row)] /\
        mText row = (if eStatus (ConvModel.sArgs m) =? StatusOK then eContent (ConvModel.sArgs m) else []) /\ (forall r, ~ In (i, r) (dbIn db2)).
Proof.
  intros U M P c0 cv p ra l1 m l2 db0 my c privkey server sv secret aMin aMax aLast mixes expire single mn mx now0 rnd apriv anonce mixto nymaddress cacert minD maxD token now1 date revoke priv nonce
    lookup now2 epriv from0 date2 R NT RO FR NC IR PL GA Es Wsv Nsv NN Ex Mn Mx Ra MO Wt T1 T2 Lt I1 I2 Rre Rno Dd Wca Lca X1 X2 Nf Dd2.
  destruct (C14_decrypts_partial M P c0 cv p ra l1 m l2 R NT RO FR NC IR) as (w & RC & WO).
  destruct (receive_decodes _ _ _ _ _ _ RC) as [raw DR].
  assert (WK : wireOk m) by (pose proof (wires _ _ _ _ R (negb p)) as F; rewrite NT in F; apply Forall_app in F as [_ F]; inversion F; assumption).
  destruct (wire_raw m raw WK DR) as (Wr & L1 & L2).
  destruct (C131_transport U M db0 my c privkey server sv secret aMin aMax aLast mixes expire single mn mx now0 rnd apriv anonce mixto nymaddress cacert minD maxD token raw now1 date revoke priv nonce
    lookup now2 epriv from0 date2 GA Es Wsv Nsv NN Ex Mn Mx Ra MO Wr L1 L2 Wt T1 T2 Lt I1 I2 Rre Rno Dd Wca Lca X1 X2 Nf Dd2) as (env & mail & mail2 & out & A1 & A2 & A3 & A4 & Wo & _ & OE).
  exists env, mail, mail2, out. split; [|split; [exact A2|split; [exact A3|split; [exact A4|]]]].
  { unfold protoCreate in A1 |- *. rewrite b64dec_enc in A1 by exact Wr. rewrite DR. exact A1. }
  intros ops i aMin' aMax' aLast' lk db sender G GA' Mm Ms WL. assert (V : Inv U db) by apply Inv_drun, Inv_empty.
  destruct (queue_set U db i my c (b64enc out) true (b64enc raw) V G) as (db1 & S1 & G1 & SM & SN & SC).
  assert (D1 : db1 = drun U (ops ++ [DSetInQueue i (b64enc raw)]) emptyDB).
  { unfold drun. rewrite fold_left_app. cbn [fold_left]. fold (drun U ops emptyDB). fold db. unfold dstep. rewrite S1. reflexivity. }
  assert (DC : cryptDecrypt M ra (cStore cv p) (b64enc raw) = DGot sender (wOut w)).
  { unfold cryptDecrypt. rewrite (receive_raw M ra (b64enc raw) (ConvModel.sWire m) (cStore cv p) raw (b64dec_enc raw Wr) DR), RC. rewrite (parseSender_plain _ _ PL). reflexivity. }
  assert (NE : sender <> []) by (intros Q; rewrite Q in Ms; unfold mapped, isMapped in Ms; cbn in Ms; discriminate Ms).
  pose proof (welcome_set my sender lk db db1 SN SC WL) as WL1. rewrite D1 in G1, WL1.
  destruct (last_step U M (ops ++ [DSetInQueue i (b64enc raw)]) (mkIev (DGot sender (wOut w)) lk) i my c (b64enc raw) sender (wOut w) G1 eq_refl NE Mm Ms WL1) as [db2 S2].
  assert (NB : ~ blocked my sender (drun U (ops ++ [DSetInQueue i (b64enc raw)]) emptyDB)).
  { unfold blocked. unfold welcome in WL1. intros Q. rewrite Q in WL1. lia. }
  destruct (C36_visible U M (ops ++ [DSetInQueue i (b64enc raw)]) (mkIev (DGot sender (wOut w)) lk) i my c (b64enc raw) sender (wOut w) db2 G1 eq_refl NE NB S2) as (k & row & FF & TX & GO & _).
  exists db1, db2, k, row. split.
  { unfold inRound. rewrite G. unfold inBody. rewrite (openEnvelope_account U M my c (b64enc out) db0 db _ _ _ _ _ _ _ _ _ GA GA'), OE. unfold tryOp. rewrite S1. reflexivity. }
  split; [unfold inRound; rewrite D1, G1, DC; exact S2|]. split; [|split; [rewrite TX; exact WO|exact GO]].
  rewrite FF, <- D1. unfold from. rewrite SM. reflexivity.
Qed.

(* The full statement is [inReach], [plainLine] and [welcome] left out.  A message that is out of reach travels in the same way
   and its envelope is opened, but no message is stored, and the entry stays the first of the queue: the loop ends with an
   error at it, and the entries behind it are not looked at.  (cf. C14_too_far_partial; receiving it again is covered, it is
   then still under way.) *)
Theorem C131_stuck : forall U (M : MixCrypto) P c0 cv p ra l1 m l2 db0 my c privkey server sv secret aMin aMax aLast
    mixes expire single mn mx now0 rnd apriv anonce mixto nymaddress cacert minD maxD token now1 date revoke priv nonce lookup now2 epriv from0 date2,
  (* the conversation, the message and the keys of the receiver; see C14_decrypts_partial *)
  reach M P c0 cv -> cNet cv (negb p) = l1 ++ m :: l2 -> recvOk M P p ra -> fresh M [dPriv ra] (cUsed cv) -> noColl M P (dPriv ra :: cUsed cv) ->
  ~ inReach ra m (cStore cv p) ->
  (* account, nym address, token, addresses and times; see C131_transport *)
  getAccount U my c db0 = Ok (privkey, server, secret, aMin, aMax, aLast) -> server = sv ++ MuteSystemDomain -> wfb sv -> no_nl sv ->
  newNymAddress U M mixes secret expire single mn mx my (dropN 32 privkey) server now0 rnd apriv anonce = Ok (mixto, nymaddress) ->
  int64ok expire -> int32ok mn -> int32ok mx -> rand32 anonce -> Forall (mixOk M lookup) mixes ->
  wfb token -> token <> [] -> token <> [0] -> lenN token + lenN nymaddress <= 60000 ->
  int32ok minD -> int32ok maxD -> rand32 revoke -> rand32 nonce -> dateOk date -> wfb cacert -> lenN cacert < 2 ^ 20 ->
  (now1 <= expire)%Z -> (now2 <= expire)%Z -> no_nl from0 -> dateOk date2 ->
  exists env mail mail2 out,
    protoCreate M cacert minD maxD (b64enc token) nymaddress (ConvModel.sWire m) now1 date revoke priv nonce = Ok env /\
    (forall e, protoDeliver env e = Ok (mixto, mail, deliver (createOut mail mixto revoke 587 [] (Some cacert)) e)) /\
    mixServer M lookup now2 epriv from0 date2 mail = Ok (mail2, hexenc (dropN 32 privkey) ++ [64] ++ server) /\
    fetchMessage mail2 = Ok out /\
    forall ops i aMin' aMax' aLast' lk, let db := drun U ops emptyDB in
      getInQueue db = Ok (Some (i, my, c, b64enc out, true)) -> getAccount U my c db = Ok (privkey, server, secret, aMin', aMax', aLast') ->
      exists db1 raw, inRound U M ra (cStore cv p) lk db = (db1, true) /\ dbMsgs db1 = dbMsgs db /\ inRound U M ra (cStore cv p) lk db1 = (db1, false) /\
        getInQueue db1 = Ok (Some (i, my, c, b64enc raw, false)) /\ b64dec (ConvModel.sWire m) = Some raw.
Proof.
  intros U M P c0 cv p ra l1 m l2 db0 my c privkey server sv secret aMin aMax aLast mixes expire single mn mx now0 rnd apriv anonce mixto nymaddress cacert minD maxD token now1 date revoke priv nonce
    lookup now2 epriv from0 date2 R NT RO FR NC IR GA Es Wsv Nsv NN Ex Mn Mx Ra MO Wt T1 T2 Lt I1 I2 Rre Rno Dd Wca Lca X1 X2 Nf Dd2.
  destruct (C14_too_far_partial M P c0 cv p ra l1 m l2 R NT RO FR NC IR) as (w & RC & _).
  destruct (receive_far _ _ _ _ _ RC) as [raw DR].
  assert (WK : wireOk m) by (pose proof (wires _ _ _ _ R (negb p)) as F; rewrite NT in F; apply Forall_app in F as [_ F]; inversion F; assumption).
  destruct (wire_raw m raw WK DR) as (Wr & L1 & L2).
  destruct (C131_transport U M db0 my c privkey server sv secret aMin aMax aLast mixes expire single mn mx now0 rnd apriv anonce mixto nymaddress cacert minD maxD token raw now1 date revoke priv nonce
    lookup now2 epriv from0 date2 GA Es Wsv Nsv NN Ex Mn Mx Ra MO Wr L1 L2 Wt T1 T2 Lt I1 I2 Rre Rno Dd Wca Lca X1 X2 Nf Dd2) as (env & mail & mail2 & out & A1 & A2 & A3 & A4 & Wo & _ & OE).
  exists env, mail, mail2, out. split; [|split; [exact A2|split; [exact A3|split; [exact A4|]]]].
  { unfold protoCreate in A1 |- *. rewrite b64dec_enc in A1 by exact Wr. rewrite DR. exact A1. }
  intros ops i aMin' aMax' aLast' lk db G GA'. assert (V : Inv U db) by apply Inv_drun, Inv_empty.
  destruct (queue_set U db i my c (b64enc out) true (b64enc raw) V G) as (db1 & S1 & G1 & SM & SN & SC).
  assert (DC : cryptDecrypt M ra (cStore cv p) (b64enc raw) = DErr).
  { unfold cryptDecrypt. rewrite (receive_raw M ra (b64enc raw) (ConvModel.sWire m) (cStore cv p) raw (b64dec_enc raw Wr) DR), RC. reflexivity. }
  exists db1, raw. split.
  { unfold inRound. rewrite G. unfold inBody. rewrite (openEnvelope_account U M my c (b64enc out) db0 db _ _ _ _ _ _ _ _ _ GA GA'), OE. unfold tryOp. rewrite S1. reflexivity. }
  split; [exact SM|]. split; [unfold inRound; rewrite G1, DC; reflexivity|]. split; [exact G1|exact DR].
Qed.

(* alice's 61st message to bob, who has not answered; she is not yet a contact of his and the key server knows her *)
Definition kM : MixCrypto := mixOf toyI.
Definition kOps : list dop := [DAddNym (cxName false) (cxName false) (str "Bob"); DAddAccount (cxName false) [] (repeat 7 64) jServer (repeat 9 64) 1 2].
Definition kNym : res (bytes * bytes) := newNymAddress goUnicode kM [jMix kM] (repeat 9 64) 1500 false 1 2 (cxName false) (repeat 7 32) jServer 1000 3 (zk 6) (zk 7).
Lemma kNym_ok : exists nymaddress, kNym = Ok (str "mix@mute.one", nymaddress) /\ lenN nymaddress <= 50000.
Proof. eexists. split; [vm_compute; reflexivity|]. vm_compute. discriminate. Qed.

Definition kDB (out : bytes) : msgdb := drun goUnicode (kOps ++ [DAddInQueue (cxName false) [] 1300 (b64enc out)]) emptyDB.
Lemma kDB_queue out : getInQueue (kDB out) = Ok (Some (1, cxName false, [], b64enc out, true)).
Proof. vm_compute. reflexivity. Qed.
Lemma kDB_account out : getAccount goUnicode (cxName false) [] (kDB out) = Ok (repeat 7 64, jServer, repeat 9 64, 1%Z, 2%Z, 0%Z).
Proof. vm_compute. reflexivity. Qed.
Lemma kDB_empty out : from (cxName false) (cxName true) (kDB out) = [] /\ welcome (cxName false) (cxName true) true (kDB out).
Proof. split; vm_compute; reflexivity. Qed.
Example C131_case : exists cv m out db1 db2 k row, reach toyI cxP cxStart cv /\ cNet cv true = [m] /\ eContent (ConvModel.sArgs m) = str "hello" /\
  inRound goUnicode kM (owRa 60) (cStore cv false) true (kDB out) = (db1, true) /\ inRound goUnicode kM (owRa 60) (cStore cv false) true db1 = (db2, true) /\
  from (cxName false) (cxName true) db2 = [(k, row)] /\ mText row = str "hello".
Proof.
  destruct (oneWay_all (N.to_nat 60)) as [c O]; [lia|]. rewrite N2Nat.id in O. destruct (oneWay_send 60 c ltac:(lia) O) as (c1 & m & OS).
  pose proof (ow_fresh 60 c1 m ltac:(lia) OS) as FR. assert (R : reach toyI cxP cxStart c1) by (apply orderly_reach, (os_ord _ _ _ OS)).
  assert (NU : sNum m = 60) by exact (os_num _ _ _ OS). assert (IR : inReach (owRa 60) m (cStore c1 false)).
  { right. exists 2. change (numKeys (dNumKeys (owRa 60))) with 50. rewrite NU. lia. }
  destruct kNym_ok as (nym & KN & LN). pose proof (os_args _ _ _ OS) as AR.
  destruct (C131_delivered_partial goUnicode kM cxP cxStart c1 false (owRa 60) [] m [] (kDB []) (cxName false) [] (repeat 7 64) jServer (str "accounts.") (repeat 9 64) 1 2 0
    [jMix kM] 1500 false 1 2 1000 3 (zk 6) (zk 7) (str "mix@mute.one") nym [] 1 2 [1; 2] 1100 (str "today") (zk 3) (zk 8) (zk 9) (jLookup kM) 1200 (zk 10) (str "mix@mute.one") (str "today")
    R (os_net _ _ _ OS) (cx_recvOk _ _) FR (toyI_noColl _ _) IR) as (env & mail & mail2 & out & _ & _ & _ & _ & K).
  - split; [notab|split; [notab|vm_compute; discriminate]].
  - apply kDB_account.
  - reflexivity.
  - apply wfbb_spec. vm_compute. reflexivity.
  - vm_compute. reflexivity.
  - exact KN.
  - unfold int64ok. lia.
  - unfold int32ok. lia.
  - unfold int32ok. lia.
  - split; [reflexivity|apply wfbb_spec; vm_compute; reflexivity].
  - constructor; [apply jMix_ok|constructor].
  - apply wfbb_spec. reflexivity.
  - discriminate.
  - discriminate.
  - change (lenN [1; 2]) with 2. lia.
  - unfold int32ok. lia.
  - unfold int32ok. lia.
  - split; [reflexivity|apply wfbb_spec; vm_compute; reflexivity].
  - split; [reflexivity|apply wfbb_spec; vm_compute; reflexivity].
  - split; [apply wfbb_spec; vm_compute; reflexivity|]. split; [reflexivity|]. vm_compute. discriminate.
  - constructor.
  - reflexivity.
  - lia.
  - lia.
  - reflexivity.
  - split; [apply wfbb_spec; vm_compute; reflexivity|]. split; [reflexivity|]. vm_compute. discriminate.
  - destruct (K (kOps ++ [DAddInQueue (cxName false) [] 1300 (b64enc out)]) 1 1%Z 2%Z 0%Z true (kDB_queue out) (kDB_account out) eq_refl eq_refl (proj2 (kDB_empty out)))
      as (db1 & db2 & k & row & S1 & S2 & F & T & _).
    exists c1, m, out, db1, db2, k, row. split; [exact R|]. split; [exact (os_net _ _ _ OS)|]. rewrite AR in T |- *. split; [reflexivity|]. split; [exact S1|]. split; [exact S2|].
    split; [|exact T]. fold (kDB out) in F. change (pName (cxP (negb false))) with (cxName true) in F. rewrite (proj1 (kDB_empty out)) in F. exact F.
Qed.

(* The statement of C131 fails: alice has sent 400 messages that were not answered, in order and none lost; her next message
   is sent and fetched, its envelope is opened, and bob has no new message, however often the queue is worked off. *)
Fixpoint inRounds (U : Unicode) (M : MixCrypto) (ra : decArgs) (st : store) (lookup : bool) (n : nat) (db : msgdb) : msgdb :=
  match n with O => db | S n' => inRounds U M ra st lookup n' (fst (inRound U M ra st lookup db)) end.
Lemma inRounds_stuck U M ra st lk db : inRound U M ra st lk db = (db, false) -> forall n, inRounds U M ra st lk n db = db.
Proof. intros E n. induction n as [|n IH]; cbn [inRounds]; [reflexivity|]. rewrite E. exact IH. Qed.
Theorem C131_refuted : exists (M : MixCrypto) P c0 cv ra m mixto nymaddress env mail mail2 lookup out,
  orderly M P c0 cv /\ noColl M P (dPriv ra :: cUsed cv) /\ cNet cv true = [m] /\ recvOk M P false ra /\ fresh M [dPriv ra] (cUsed cv) /\
  eStatus (ConvModel.sArgs m) = StatusOK /\ eContent (ConvModel.sArgs m) = str "hello" /\
  newNymAddress goUnicode M [jMix M] (repeat 9 64) 1500 false 1 2 (cxName false) (repeat 7 32) jServer 1000 3 (zk 6) (zk 7) = Ok (mixto, nymaddress) /\
  protoCreate M [] 1 2 (b64enc [1; 2]) nymaddress (ConvModel.sWire m) 1100 (str "today") (zk 3) (zk 8) (zk 9) = Ok env /\
  (forall e, protoDeliver env e = Ok (mixto, mail, deliver (createOut mail mixto (zk 3) 587 [] (Some [])) e)) /\
  mixServer M lookup 1200 (zk 10) (str "mix@mute.one") (str "today") mail = Ok (mail2, hexenc (repeat 7 32) ++ [64] ++ jServer) /\ fetchMessage mail2 = Ok out /\
  getInQueue (kDB out) = Ok (Some (1, cxName false, [], b64enc out, true)) /\ welcome (cxName false) (cxName true) true (kDB out) /\
  forall n, from (cxName false) (cxName true) (inRounds goUnicode M ra (cStore cv false) true n (kDB out)) = [].
Proof.
  destruct oneWay_fails as (c1 & m & OS & FR & w & E). assert (O : orderly toyI cxP cxStart c1) by exact (os_ord _ _ _ OS). pose proof (orderly_reach _ _ _ _ O) as R.
  assert (IR : ~ inReach (owRa 400) m (cStore c1 false)).
  { intros IR. destruct (C14_decrypts_partial toyI cxP cxStart c1 false (owRa 400) [] m [] R (os_net _ _ _ OS) (cx_recvOk _ _) FR (toyI_noColl _ _) IR) as (w' & E' & _).
    rewrite E in E'. discriminate E'. }
  destruct kNym_ok as (nym & KN & LN). pose proof (os_args _ _ _ OS) as AR.
  destruct (C131_stuck goUnicode kM cxP cxStart c1 false (owRa 400) [] m [] (kDB []) (cxName false) [] (repeat 7 64) jServer (str "accounts.") (repeat 9 64) 1 2 0
    [jMix kM] 1500 false 1 2 1000 3 (zk 6) (zk 7) (str "mix@mute.one") nym [] 1 2 [1; 2] 1100 (str "today") (zk 3) (zk 8) (zk 9) (jLookup kM) 1200 (zk 10) (str "mix@mute.one") (str "today")
    R (os_net _ _ _ OS) (cx_recvOk _ _) FR (toyI_noColl _ _) IR) as (env & mail & mail2 & out & A1 & A2 & A3 & A4 & K).
  - apply kDB_account.
  - reflexivity.
  - apply wfbb_spec. vm_compute. reflexivity.
  - vm_compute. reflexivity.
  - exact KN.
  - unfold int64ok. lia.
  - unfold int32ok. lia.
  - unfold int32ok. lia.
  - split; [reflexivity|apply wfbb_spec; vm_compute; reflexivity].
  - constructor; [apply jMix_ok|constructor].
  - apply wfbb_spec. reflexivity.
  - discriminate.
  - discriminate.
  - change (lenN [1; 2]) with 2. lia.
  - unfold int32ok. lia.
  - unfold int32ok. lia.
  - split; [reflexivity|apply wfbb_spec; vm_compute; reflexivity].
  - split; [reflexivity|apply wfbb_spec; vm_compute; reflexivity].
  - split; [apply wfbb_spec; vm_compute; reflexivity|]. split; [reflexivity|]. vm_compute. discriminate.
  - constructor.
  - reflexivity.
  - lia.
  - lia.
  - reflexivity.
  - split; [apply wfbb_spec; vm_compute; reflexivity|]. split; [reflexivity|]. vm_compute. discriminate.
  - exists kM, cxP, cxStart, c1, (owRa 400), m, (str "mix@mute.one"), nym, env, mail, mail2, (jLookup kM), out.
    split; [exact O|]. split; [apply toyI_noColl|]. split; [exact (os_net _ _ _ OS)|]. split; [apply cx_recvOk|]. split; [exact FR|].
    rewrite AR. split; [reflexivity|]. split; [reflexivity|]. split; [exact KN|]. split; [exact A1|]. split; [exact A2|]. split; [exact A3|]. split; [exact A4|].
    split; [apply kDB_queue|]. split; [exact (proj2 (kDB_empty out))|]. intros n.
    destruct (K (kOps ++ [DAddInQueue (cxName false) [] 1300 (b64enc out)]) 1 1%Z 2%Z 0%Z true (kDB_queue out) (kDB_account out)) as (db1 & raw & S1 & SM & S2 & _).
    fold (kDB out) in S1, SM. destruct n as [|n]; cbn [inRounds]; [exact (proj1 (kDB_empty out))|].
    change (mixOf toyI) with kM in S1. rewrite S1. cbn [fst]. rewrite (inRounds_stuck _ _ _ _ _ _ S2). pose proof (proj1 (kDB_empty out)) as F0. unfold from in F0 |- *. rewrite SM. exact F0.
Qed.

Print Assumptions C131_delivered_partial.
Print Assumptions C131_stuck.
Print Assumptions C131_refuted.
