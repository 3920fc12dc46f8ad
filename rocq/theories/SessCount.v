(* What Decrypt does to the stored session states, for every store, message and result (errors and panics included). *)
From Verif Require Import Base Base64Model CodecModel JsonModel Maps CryptoModel StoreModel KeysModel KeysProofs MsgFormatModel HeaderModel ProtoModel ProtoProofs ConvInv ConvSend ConvTrack SessState.
Local Open Scope N_scope.

(* the number of messages sent, over all sessions (msg/session/session.go:16-17) *)
Definition total (s : state) : N := u64 (stSessCount s + stMsgCount s).
Definition keeps (ss s : state) : Prop :=
  (total s = total ss /\ (stKeyInit ss = false -> stKeyInit s = false) /\ stMsgCount s <= stMsgCount ss) \/ (stKeyInit ss = true /\ stSessCount s = 0 /\ stMsgCount s = 0 /\ stKeyInit s = false).
Definition isNew (s : state) : Prop := stSessCount s = 0 /\ stMsgCount s = 0 /\ stKeyInit s = false.
Definition setOk (st0 : store) (o : op) : Prop :=
  match o with OSetState k s => match mget k (states st0) with Some ss => keeps ss s | None => isNew s end | _ => True end.
Definition statesOk (st0 st : store) : Prop :=
  forall k, match mget k (states st0) with Some ss => exists s, mget k (states st) = Some s /\ keeps ss s | None => forall s, mget k (states st) = Some s -> isNew s end.
Lemma setOk_fold st0 l : Forall (setOk st0) l -> forall st, statesOk st0 st -> statesOk st0 (fold_left (fun s o => apply_op o s) l st).
Proof.
  intros F. induction F as [|o l H F IH]; intros st B; cbn [fold_left]; [exact B|]. apply IH. clear IH. intros k. specialize (B k).
  destruct o as [key s'|sk rh ck a b|h j p c|h|sk b i|b]; cbn [apply_op states]; try exact B.
  - destruct (beqP key k) as [->|N].
    + cbn [setOk] in H. rewrite mget_mset_same. destruct (mget k (states st0)); [exists s'; auto|]. intros s Q. apply someInj in Q. now subst s.
    + rewrite mget_mset_other by congruence. exact B.
  - destruct (mget h (skeys st)); exact B.
  - destruct (mget sk (sessions st)); exact B.
Qed.
Definition tracedAt {A} (P : op -> Prop) (m : M A) (w : world) : Prop := exists l, snd (m w) = steps w l /\ Forall P l.
Lemma at_traced {A} P (m : M A) w : traced P m -> tracedAt P m w.
Proof. intros T. exact (T w). Qed.
Lemma at_lift {A B} P (x : res A) (f : A -> M B) w : (forall a, x = Ok a -> tracedAt P (f a) w) -> tracedAt P (mbind (lift x) f) w.
Proof. intros H. unfold tracedAt, mbind, lift. destruct x; [now apply H|exists []; split; [reflexivity|constructor]|exists []; split; [reflexivity|constructor]]. Qed.
Lemma at_ask {A B} P (g : store -> A) (f : A -> M B) w : tracedAt P (f (g (wStore w))) w -> tracedAt P (mbind (ask g) f) w.
Proof. intros H. exact H. Qed.
Lemma at_bind {A B} P (m : M A) (f : A -> M B) w : tracedAt P m w -> (forall a, traced P (f a)) -> tracedAt P (mbind m f) w.
Proof.
  intros (l & E & F) H. unfold tracedAt, mbind. destruct (m w) as [[a|e|] w1] eqn:Q; cbn [snd] in E; subst w1.
  - destruct (H a (steps w l)) as (l2 & E2 & F2). exists (l ++ l2). rewrite steps_app, E2. split; [reflexivity|]. apply Forall_app. auto.
  - exists l. auto.
  - exists l. auto.
Qed.
(* a rule that remembers a property of the result *)
Lemma traced_bindR {A B} P (R : A -> Prop) (m : M A) (f : A -> M B) : traced P m -> (forall w a w', m w = (Ok a, w') -> R a) -> (forall a, R a -> traced P (f a)) -> traced P (mbind m f).
Proof.
  intros T H1 H2 w. destruct (T w) as (l & E & F). unfold mbind. destruct (m w) as [[a|e|] w1] eqn:Q; cbn [snd] in E; subst w1.
  - destruct (H2 a (H1 _ _ _ Q) (steps w l)) as (l2 & E2 & F2). exists (l ++ l2). rewrite steps_app, E2. split; [reflexivity|]. apply Forall_app. auto.
  - exists l. auto.
  - exists l. auto.
Qed.
Definition setNextOf (C : Crypto) (ss : state) (priv : bytes) : state :=
  mkState (stSessCount ss) (stMsgCount ss) (stMaxRecv ss) (stRecipTemp ss) (stSenderPub ss) (Some (initDHKey C priv)) (stNextSeen ss) (stNym ss) (stKeyInit ss).
Lemma traced_setNextAt C (P : op -> Prop) ss k p c : (forall x y z u, P (OAddSessionKey x y z u)) -> P (OSetState k (setNextOf C ss p)) -> traced P (setNextSenderSessionPub C ss k p c).
Proof.
  intros H1 H2. unfold setNextSenderSessionPub. apply traced_bind; [apply (traced_addSessionKey C), H1|intros]. apply traced_bind; [apply traced_emit, H2|intros]. apply traced_pure; reflexivity.
Qed.
Lemma setNext_res C ss k p c w a w' : setNextSenderSessionPub C ss k p c w = (Ok a, w') -> snd a = setNextOf C ss p.
Proof.
  unfold setNextSenderSessionPub. intros Q. apply mbind_ok in Q as (u1 & v1 & _ & Q). apply mbind_ok in Q as (u2 & v2 & _ & Q). apply okpair in Q as [<- _]. reflexivity.
Qed.
Lemma total_switched ss a b n : total (switched ss a b n) = total ss.
Proof. unfold total, switched. cbn [stSessCount stMsgCount]. unfold u64. rewrite N.add_0_r. apply N.mod_mod. lia. Qed.
Lemma keeps_total ss s : total s = total ss -> (stKeyInit ss = false -> stKeyInit s = false) -> stMsgCount s <= stMsgCount ss -> keeps ss s.
Proof. left. auto. Qed.
Lemma traced_decKnown C st0 hp i ke h key sk ss nk z cl : mget key (states st0) = Some ss -> traced (setOk st0) (decKnown C hp i ke h key sk (Some ss) nk z cl).
Proof.
  intros G. unfold decKnown. assert (SW : forall a b n, setOk st0 (OSetState key (switched ss a b n))).
  { intros a b n. cbn [setOk]. rewrite G. apply keeps_total; [apply total_switched|reflexivity|cbn [switched stMsgCount]; lia]. }
  apply traced_bind; [|intros s1; apply traced_bind; [apply traced_emit; exact I|intros u; apply traced_pure; reflexivity]].
  destruct (_ && _).
  - destruct (hNext h) as [hn|]; [|apply traced_pure; reflexivity]. destruct (stNextSender ss) as [own|].
    + destruct (isHash (keHash own) (hSeen h)); [|apply traced_pure; reflexivity].
      apply traced_bind; [apply traced_getSessionKey|]. intros [next op]. apply traced_bind; [apply traced_pure; reflexivity|]. intros prev.
      apply traced_bind; [apply traced_lift|]. intros rp. apply traced_bind; [apply traced_lift|]. intros np. apply traced_bind; [apply traced_rkaR; intros; exact I|]. intros u.
      apply traced_bind; [apply traced_emit, SW|]. intros u'. apply traced_pure; reflexivity.
    + apply (traced_bindR _ (fun a => snd a = setNextOf C ss z)).
      * apply traced_setNextAt; [intros; exact I|]. cbn [setOk]. rewrite G. apply keeps_total; [reflexivity|auto|cbn [setNextOf stMsgCount]; lia].
      * intros w a w'. apply setNext_res.
      * intros [next s'] E. cbn [snd] in E. subst s'. apply traced_bind; [apply traced_pure; reflexivity|]. intros prev.
        apply traced_bind; [apply traced_lift|]. intros rp. apply traced_bind; [apply traced_rkaS; intros; exact I|]. intros u.
        destruct (stNextSeen (setNextOf C ss z)); [apply traced_pure; reflexivity|]. apply traced_bind; [apply traced_emit|intros u'; apply traced_pure; reflexivity].
        cbn [setOk]. rewrite G. apply keeps_total; [reflexivity|auto|cbn [setNextOf stMsgCount]; lia].
  - destruct (stNextSender ss) as [own|]; [|apply traced_pure; reflexivity].
    destruct (_ && _); [|apply traced_pure; reflexivity]. apply traced_bind; [apply traced_emit, SW|intros u; apply traced_pure; reflexivity].
Qed.
Lemma traced_decUnknown C st0 hp i ke h key sk nk z cl : traced (setOk st0) (decUnknown C hp i ke h key sk (mget key (states st0)) nk z cl).
Proof.
  unfold decUnknown. apply traced_bind; [apply traced_pure; reflexivity|]. intros [[ki kp]|]; [|apply traced_pure; reflexivity].
  apply traced_bind; [apply traced_lift|]. intros rp. apply traced_bind; [apply traced_rkaR; intros; exact I|]. intros u.
  destruct (match mget key (states st0) with None => true | Some ss => stKeyInit ss && bltb (hSender h) (uIdentity (idUid i)) end) eqn:E; [|apply traced_pure; reflexivity].
  apply traced_bind; [apply (traced_addSessionKey C); intros; exact I|]. intros u1. apply traced_bind.
  - destruct (hNext h); [|apply traced_pure; reflexivity]. apply traced_bind; [apply traced_pure; reflexivity|]. intros prev. apply traced_rkaS; intros; exact I.
  - intros u2. apply traced_bind; [apply traced_emit|intros u3; apply traced_pure; reflexivity]. cbn [setOk].
    destruct (mget key (states st0)) as [ss|]; [|repeat split]. apply andb_prop in E as [E _]. right. auto.
Qed.
Lemma at_decState C ra hp i h w : tracedAt (setOk (wStore w)) (decState C ra hp i h) w.
Proof.
  unfold decState. apply at_lift. intros ke _. apply at_lift. intros rp _. apply at_lift. intros sp _. cbv zeta. apply at_ask. apply at_ask. apply at_bind; [|intros o; apply traced_pure; reflexivity].
  destruct (mhas _ _).
  - destruct (mget (calcStateKey C rp sp) (states (wStore w))) as [ss|] eqn:E; [|apply at_traced, traced_lift]. apply at_traced. now apply traced_decKnown.
  - apply at_traced. apply traced_decUnknown.
Qed.
Lemma noState_setOk st0 o : noState o -> setOk st0 o.
Proof. destruct o; cbn; tauto. Qed.
Lemma at_receive C ra msg w : tracedAt (setOk (wStore w)) (receive C ra msg) w.
Proof.
  unfold receive. destruct (b64dec msg) as [raw|]; [|apply at_traced, traced_lift]. apply at_lift. intros [[v pre] s0] _. destruct (negb (v =? Version)); [apply at_traced, traced_lift|].
  unfold decrypt. apply at_lift. intros [[[hp i] h] s] _. apply at_bind; [apply at_decState|]. intros x. eapply traced_weaken; [apply noState_setOk|]. apply (rest_quiet C ra i h s x).
Qed.
(* Decrypt keeps the number of sent messages of every conversation, and a state that is not from a KeyInit message stays
   that way; a state from a KeyInit message may be replaced by a new one. *)
Lemma receive_states C ra msg w r w' : receive C ra msg w = (r, w') -> statesOk (wStore w) (wStore w').
Proof.
  intros E. destruct (at_receive C ra msg w) as (l & L & F). rewrite E in L. cbn [snd] in L. subst w'. rewrite steps_store.
  apply (setOk_fold _ _ F). intros k. destruct (mget k (states (wStore w))) as [s|]; [|discriminate]. exists s. split; [reflexivity|]. left. split; [reflexivity|]. split; [auto|lia].
Qed.
Theorem receive_keeps C ra msg w r w' : receive C ra msg w = (r, w') -> forall key ss, mget key (states (wStore w)) = Some ss ->
  exists ss', mget key (states (wStore w')) = Some ss' /\ keeps ss ss'.
Proof. intros E key ss G. pose proof (receive_states _ _ _ _ _ _ E key) as S. rewrite G in S. exact S. Qed.

(* ---- Encrypt ---- *)
Definition onlyKey (key : bytes) (o : op) : Prop := match o with OSetState k _ => k = key | _ => True end.
Lemma onlyKey_fold key l : Forall (onlyKey key) l -> forall st k, k <> key -> mget k (states (fold_left (fun s o => apply_op o s) l st)) = mget k (states st).
Proof.
  intros F. induction F as [|o l H F IH]; intros st k N; cbn [fold_left]; [reflexivity|]. rewrite IH by exact N.
  destruct o as [k' s|sk rh ck a b|h j p c|h|sk b i|b]; cbn [apply_op states] in *; try reflexivity.
  - cbn in H. subst k'. now apply mget_mset_other.
  - destruct (mget h (skeys st)); reflexivity.
  - destruct (mget sk (sessions st)); reflexivity.
Qed.
Lemma noState_onlyKey key o : noState o -> onlyKey key o.
Proof. destruct o; cbn; tauto. Qed.
Lemma at_encState C a r w fke fk tke tk : pubKey (idUid (eFrom a)) = Ok fke -> pub32 fke = Ok fk -> pubKey (eTo a) = Ok tke -> pub32 tke = Ok tk ->
  tracedAt (onlyKey (calcStateKey C fk tk)) (encState C a r) w.
Proof.
  intros F1 F2 T1 T2. unfold encState. apply at_lift. intros k1 Q1. rewrite F1 in Q1. apply Ok_inj in Q1. subst k1. apply at_lift. intros k1 Q1. rewrite F2 in Q1. apply Ok_inj in Q1. subst k1.
  apply at_lift. intros k1 Q1. rewrite T1 in Q1. apply Ok_inj in Q1. subst k1. apply at_lift. intros k1 Q1. rewrite T2 in Q1. apply Ok_inj in Q1. subst k1. cbv zeta.
  apply at_traced. apply traced_bind; [destruct (_ =? _); apply traced_pure; reflexivity|]. intros [ss|].
  - destruct (_ =? _); [apply traced_pure; reflexivity|]. destruct (stNextSender ss); [apply traced_pure; reflexivity|]. destruct (rCoin r); [|apply traced_pure; reflexivity].
    apply traced_bind; [|intros [k s]; apply traced_pure; reflexivity]. apply traced_setNextAt; [intros; exact I|reflexivity].
  - apply traced_bind; [|]. { apply traced_pure. intros v. unfold getPublicKeyEntry. destruct (mget _ _); reflexivity. }
    intros [rt ny]. apply traced_bind; [apply (traced_addSessionKey C); intros; exact I|]. intros u. apply traced_bind; [apply traced_lift|]. intros fp.
    apply traced_bind; [apply traced_rkaS; intros; exact I|]. intros u1. apply traced_bind; [apply traced_emit; reflexivity|]. intros u2. apply traced_pure; reflexivity.
Qed.
Lemma traced_encKey_noState C a ss : traced noState (encKey C a ss).
Proof. unfold encKey. trk. Qed.
(* other conversations are not touched *)
Theorem encrypt_others C a r w nym w' fke fk tke tk : pubKey (idUid (eFrom a)) = Ok fke -> pub32 fke = Ok fk -> pubKey (eTo a) = Ok tke -> pub32 tke = Ok tk ->
  encrypt C a r w = (Ok nym, w') -> forall k, k <> calcStateKey C fk tk -> mget k (states (wStore w')) = mget k (states (wStore w)).
Proof.
  intros F1 F2 T1 T2 E k N. apply encrypt_ok in E as (ss & w1 & w2 & hp & sk & mk & body & fk' & tk' & [O1 _ O3 _ _ _ O7 O8 O9]).
  rewrite F1 in O7. cbn [rbind] in O7. rewrite F2 in O7. apply Ok_inj in O7. subst fk'.
  rewrite T1 in O8. cbn [rbind] in O8. rewrite T2 in O8. apply Ok_inj in O8. subst tk'.
  rewrite O9, steps_store. rewrite (onlyKey_fold (calcStateKey C fk tk)); [|repeat constructor|exact N].
  rewrite (quiet _ _ _ _ (traced_encKey_noState C a ss) O3). destruct (at_encState C a r w _ _ _ _ F1 F2 T1 T2) as (l & L & F). rewrite O1 in L. cbn [snd] in L. subst w1.
  rewrite steps_store. now apply (onlyKey_fold (calcStateKey C fk tk)).
Qed.
Lemma total_next C a r ss : total (stateNext C a r ss) = u64 (total ss + 1).
Proof. unfold total, stateNext. cbn [stSessCount stMsgCount]. unfold u64. rewrite N.add_mod_idemp_r by lia. rewrite N.add_mod_idemp_l by lia. f_equal. lia. Qed.

(* ---- the private session key is deleted ---- *)
Definition noAdd (o : op) : Prop := match o with OAddSessionKey _ _ _ _ => False | _ => True end.
Definition privGone (h : bytes) (st : store) : Prop := forall e, mget h (skeys st) = Some e -> skPriv e = [].
Lemma noAdd_fold l : Forall noAdd l -> forall st h, privGone h st -> privGone h (fold_left (fun s o => apply_op o s) l st).
Proof.
  intros F. induction F as [|o l H F IH]; intros st h G; cbn [fold_left]; [exact G|]. apply IH. destruct o as [k' s|sk rh ck a b|h' j p c|h'|sk b i|b]; cbn [apply_op] in *; try exact G; try contradiction.
  - destruct (mget h' (skeys st)) as [e|] eqn:E; [|exact G]. intros e' Q. cbn [skeys] in Q. destruct (beqP h' h) as [->|N].
    + rewrite mget_mset_same in Q. apply someInj in Q. subst e'. reflexivity.
    + rewrite mget_mset_other in Q by congruence. now apply G.
  - destruct (mget sk (sessions st)); exact G.
Qed.
Lemma traced_decKey_noAdd C i ke h sk oss nk : traced noAdd (decKey C i ke h sk oss nk).
Proof. unfold decKey. trk. Qed.
Lemma traced_delMsg_noAdd sk b n : traced noAdd (delMessageKey sk b n).
Proof. unfold delMessageKey. trk. Qed.
Lemma rest_noAdd C ra i h s x : traced noAdd (restOf C ra i h s x).
Proof.
  unfold restOf. destruct x as [[ke sk] oss]. apply traced_bind; [apply traced_decKey_noAdd|]. intros mk. apply traced_bind; [apply traced_lift|]. intros [[[o2 o3] ih] s'].
  apply traced_bind; [apply traced_emit; exact I|]. intros u. apply traced_bind; [apply traced_lift|]. intros sig. apply traced_bind; [apply traced_delMsg_noAdd|]. intros u'.
  apply traced_pure. reflexivity.
Qed.
Lemma decKnown_deletes C hp i ke h key sk oss nk z cl w o w' : decKnown C hp i ke h key sk oss nk z cl w = (Ok o, w') -> privGone (hRecipTempHash h) (wStore w').
Proof.
  intros E. unfold decKnown in E. destruct oss as [ss|]; [|discriminate]. apply mbind_ok in E as (ss1 & w1 & _ & D). apply mbind_ok in D as (u & w2 & D1 & D2). apply okpair in D2 as [_ <-].
  rewrite emit_eq in D1. apply okpair in D1 as [_ <-]. change (wStore (step_op w1 (ODelPriv (hRecipTempHash h)))) with (apply_op (ODelPriv (hRecipTempHash h)) (wStore w1)). cbn [apply_op].
  destruct (mget (hRecipTempHash h) (skeys (wStore w1))) as [e|] eqn:G; intros e' Q; [|congruence]. cbn [skeys] in Q. rewrite mget_mset_same in Q. apply someInj in Q. subst e'. reflexivity.
Qed.
Theorem receive_deletes C ra msg w x w' hp i h s ke : receive C ra msg w = (Ok x, w') -> readsHeader C ra msg hp i h s -> pubKey (idUid i) = Ok ke ->
  mhas (calcKey C (keHash ke) (keHash (hSenderPub h)) (hRecipTempHash h) (keHash (hSessPub h))) (sessions (wStore w)) = true -> privGone (hRecipTempHash h) (wStore w').
Proof.
  intros E RH PK KN. rewrite (receive_reads _ _ _ _ _ _ _ _ RH) in E. apply mbind_ok in E as (y & w1 & D & R).
  destruct (rest_noAdd C ra i h s y w1) as (l & L & F). rewrite R in L. cbn [snd] in L. subst w'. rewrite steps_store. apply (noAdd_fold _ F).
  unfold decState in D. rewrite PK, lift_bind in D. apply mbind_ok in D as (rp & v & Q & D). apply lift_ok in Q as [_ ->]. apply mbind_ok in D as (sp & v & Q & D). apply lift_ok in Q as [_ ->]. cbv zeta in D.
  apply mbind_ok in D as (oss & v & Q & D). unfold getSessionState in Q. apply ask_ok in Q as [-> ->]. apply mbind_ok in D as (kn & v & Q & D). unfold hasSession in Q. apply ask_ok in Q as [-> ->].
  rewrite KN in D. apply mbind_ok in D as (o & v & Q & D). apply okpair in D as [_ <-]. apply decKnown_deletes in Q. exact Q.
Qed.

(* ---- Decrypt writes only the state of the conversation the header names ---- *)
Lemma only_decState C ra hp i h w ke rp sp : pubKey (idUid i) = Ok ke -> pub32 ke = Ok rp -> pub32 (hSenderPub h) = Ok sp ->
  tracedAt (onlyKey (calcStateKey C rp sp)) (decState C ra hp i h) w.
Proof.
  intros K1 K2 K3. unfold decState. apply at_lift. intros k Q. rewrite K1 in Q. apply Ok_inj in Q. subst k. apply at_lift. intros k Q. rewrite K2 in Q. apply Ok_inj in Q. subst k.
  apply at_lift. intros k Q. rewrite K3 in Q. apply Ok_inj in Q. subst k. cbv zeta. apply at_ask. apply at_ask. apply at_bind; [|intros o; apply traced_pure; reflexivity].
  set (key := calcStateKey C rp sp). destruct (mhas _ _); apply at_traced.
  - unfold decKnown. destruct (mget key (states (wStore w))) as [ss|]; [|apply traced_lift].
    apply traced_bind; [|intros s1; apply traced_bind; [apply traced_emit; exact I|intros u; apply traced_pure; reflexivity]].
    destruct (_ && _).
    + destruct (hNext h) as [hn|]; [|apply traced_pure; reflexivity]. destruct (stNextSender ss) as [own|].
      * destruct (isHash (keHash own) (hSeen h)); [|apply traced_pure; reflexivity].
        apply traced_bind; [apply traced_getSessionKey|]. intros [next op]. apply traced_bind; [apply traced_pure; reflexivity|]. intros prev.
        apply traced_bind; [apply traced_lift|]. intros x1. apply traced_bind; [apply traced_lift|]. intros np. apply traced_bind; [apply traced_rkaR; intros; exact I|]. intros u.
        apply traced_bind; [apply traced_emit; reflexivity|]. intros u'. apply traced_pure; reflexivity.
      * apply traced_bind; [apply traced_setNextAt; [intros; exact I|reflexivity]|]. intros [next s']. apply traced_bind; [apply traced_pure; reflexivity|]. intros prev.
        apply traced_bind; [apply traced_lift|]. intros x1. apply traced_bind; [apply traced_rkaS; intros; exact I|]. intros u.
        destruct (stNextSeen s'); [apply traced_pure; reflexivity|]. apply traced_bind; [apply traced_emit; reflexivity|intros u'; apply traced_pure; reflexivity].
    + destruct (stNextSender ss) as [own|]; [|apply traced_pure; reflexivity].
      destruct (_ && _); [|apply traced_pure; reflexivity]. apply traced_bind; [apply traced_emit; reflexivity|intros u; apply traced_pure; reflexivity].
  - unfold decUnknown. apply traced_bind; [apply traced_pure; reflexivity|]. intros [[ki kp]|]; [|apply traced_pure; reflexivity].
    apply traced_bind; [apply traced_lift|]. intros x1. apply traced_bind; [apply traced_rkaR; intros; exact I|]. intros u.
    destruct (match mget key (states (wStore w)) with None => true | Some ss => _ end); [|apply traced_pure; reflexivity].
    apply traced_bind; [apply (traced_addSessionKey C); intros; exact I|]. intros u1. apply traced_bind.
    + destruct (hNext h); [|apply traced_pure; reflexivity]. apply traced_bind; [apply traced_pure; reflexivity|]. intros prev. apply traced_rkaS; intros; exact I.
    + intros u2. apply traced_bind; [apply traced_emit; reflexivity|intros u3; apply traced_pure; reflexivity].
Qed.
Theorem receive_others C ra msg w r w' hp i h s ke rp sp : receive C ra msg w = (r, w') -> readsHeader C ra msg hp i h s ->
  pubKey (idUid i) = Ok ke -> pub32 ke = Ok rp -> pub32 (hSenderPub h) = Ok sp ->
  forall k, k <> calcStateKey C rp sp -> mget k (states (wStore w')) = mget k (states (wStore w)).
Proof.
  intros E RH K1 K2 K3 k N. rewrite (receive_reads _ _ _ _ _ _ _ _ RH) in E.
  assert (T : tracedAt (onlyKey (calcStateKey C rp sp)) (mbind (decState C ra hp i h) (restOf C ra i h s)) w).
  { apply at_bind; [now apply only_decState with ke|]. intros y. eapply traced_weaken; [apply noState_onlyKey|apply rest_quiet]. }
  destruct T as (l & L & F). rewrite E in L. cbn [snd] in L. subst w'. rewrite steps_store. now apply (onlyKey_fold (calcStateKey C rp sp)).
Qed.
(* without a readable header nothing is written *)
Theorem receive_unread C ra msg w r w' : receive C ra msg w = (r, w') -> (forall hp i h s, ~ readsHeader C ra msg hp i h s) -> w' = w /\ forall x, r <> Ok x.
Proof.
  intros E N. unfold receive in E. destruct (b64dec msg) as [raw|] eqn:B; [|inversion E; split; [reflexivity|discriminate]].
  destruct (ReadFirstOuterHeader raw) as [[[v pre] s0]|e|] eqn:R; [|inversion E; split; [reflexivity|discriminate]|inversion E; split; [reflexivity|discriminate]].
  rewrite lift_bind in E. destruct (N.eqb_spec v Version) as [->|]; cbn [negb] in E; [|inversion E; split; [reflexivity|discriminate]].
  unfold decrypt in E. destruct (decHeader C (dIds ra) pre s0) as [[[[hp i] h] s]|e|] eqn:D.
  - exfalso. apply (N hp i h s). exists raw, pre, s0. auto.
  - inversion E. split; [reflexivity|discriminate].
  - inversion E. split; [reflexivity|discriminate].
Qed.

(* ---- the first Encrypt stores the new private session key ---- *)
Definition keepsKeys (o : op) : Prop := match o with OAddSessionKey _ _ _ _ | ODelPriv _ => False | _ => True end.
Lemma keepsKeys_fold l : Forall keepsKeys l -> forall st, skeys (fold_left (fun s o => apply_op o s) l st) = skeys st.
Proof.
  intros F. induction F as [|o l H F IH]; intros st; cbn [fold_left]; [reflexivity|]. rewrite IH. destruct o; cbn [apply_op] in *; try reflexivity; try contradiction.
  match goal with |- context [match ?x with _ => _ end] => destruct x; reflexivity end.
Qed.
Lemma keepsKeys_run {A} (m : M A) w r w' : traced keepsKeys m -> m w = (r, w') -> skeys (wStore w') = skeys (wStore w).
Proof. intros T E. destruct (T w) as (l & L & F). rewrite E in L. cbn [snd] in L. subst w'. rewrite steps_store. now apply keepsKeys_fold. Qed.
Lemma first_skey C a r w nym w' : encrypt C a r w = (Ok nym, w') ->
  (forall fke fk tke tk, pubKey (idUid (eFrom a)) = Ok fke -> pub32 fke = Ok fk -> pubKey (eTo a) = Ok tke -> pub32 tke = Ok tk ->
     eStatus a = StatusReset \/ mget (calcStateKey C fk tk) (states (wStore w)) = None) ->
  exists e, mget (keHash (initDHKey C (rSessPriv r))) (skeys (wStore w')) = Some e /\ skPriv e = b64enc (rSessPriv r).
Proof.
  intros E S. apply encrypt_ok in E as (ss & w1 & w2 & hp & sk & mk & body & fk & tk & [O1 _ O3 _ _ _ _ _ O9]).
  rewrite O9, steps_store. rewrite keepsKeys_fold by (repeat constructor).
  assert (TK : traced keepsKeys (encKey C a ss)) by (unfold encKey; trk). rewrite (keepsKeys_run _ _ _ _ TK O3).
  unfold encState in O1. apply mbind_ok in O1 as (fke & v & Q1 & O1). apply lift_ok in Q1 as [Q1 ->]. apply mbind_ok in O1 as (fk' & v & Q2 & O1). apply lift_ok in Q2 as [Q2 ->].
  apply mbind_ok in O1 as (tke & v & Q3 & O1). apply lift_ok in Q3 as [Q3 ->]. apply mbind_ok in O1 as (tk' & v & Q4 & O1). apply lift_ok in Q4 as [Q4 ->]. cbv zeta in O1.
  apply mbind_ok in O1 as (oss & v & Q & O1). assert (oss = None /\ v = w) as [-> ->].
  { destruct (eStatus a =? StatusReset) eqn:ES; [apply okpair in Q as [<- <-]; auto|]. destruct (S _ _ _ _ Q1 Q2 Q3 Q4) as [S'|S']; [rewrite S' in ES; discriminate|].
    unfold getSessionState in Q. apply ask_ok in Q as [-> ->]. auto. }
  clear Q. apply mbind_ok in O1 as ([rt ny] & v & _ & O1). apply mbind_ok in O1 as (u1 & v1 & Q5 & O1). apply mbind_ok in O1 as (fp & v2 & Q6 & O1). apply lift_ok in Q6 as [_ ->].
  apply mbind_ok in O1 as (u3 & v3 & Q7 & O1). apply (keepsKeys_run _ _ _ _ (traced_rkaS C keepsKeys _ _ _ _ _ _ _ _ _ _ _ ltac:(intros; exact I))) in Q7.
  apply mbind_ok in O1 as (u4 & v4 & Q8 & O1). apply okpair in O1 as [_ <-]. rewrite emit_eq in Q8. apply okpair in Q8 as [_ <-].
  change (skeys (wStore (step_op v3 (OSetState (calcStateKey C fk' tk') (mkState 0 0 0 rt (initDHKey C (rSessPriv r)) None None ny true))))) with (skeys (wStore v3)). rewrite Q7.
  unfold addSessionKey in Q5. rewrite emit_eq in Q5. apply okpair in Q5 as [_ <-]. cbn [step_op wStore apply_op skeys]. rewrite mget_mset_same. eexists. split; reflexivity.
Qed.
