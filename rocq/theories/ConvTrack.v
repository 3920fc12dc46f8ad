(* The session state after a call of Encrypt. *)
From Verif Require Import Base Base64Model Base64Proofs CodecModel CodecProofs JsonModel JsonProofs Maps CryptoModel StoreModel KeysModel KeysProofs MsgFormatModel MsgFormatProofs HeaderModel HeaderProofs ProtoModel ProtoProofs ProtoFirst ConvModel ConvSteps ConvInv ConvProofs ConvSend.
Local Open Scope N_scope.

(* the next session key of the sender after Encrypt *)
Definition nextOf (C : Crypto) (a : encArgs) (r : encRnd) (o : option keyEntry) : option keyEntry :=
  if eStatus a =? StatusError then o
  else match o with Some k => Some k | None => if rCoin r then Some (initDHKey C (rSessPriv r)) else None end.
(* the state after Encrypt, from the state before *)
Definition stateNext (C : Crypto) (a : encArgs) (r : encRnd) (ss : state) : state :=
  mkState (stSessCount ss) (u64 (stMsgCount ss + 1)) (stMaxRecv ss) (stRecipTemp ss) (stSenderPub ss) (nextOf C a r (stNextSender ss)) (stNextSeen ss) (stNym ss) (stKeyInit ss).
Definition stateNew (C : Crypto) (r : encRnd) (rt : keyEntry) (nym : bytes) : state :=
  mkState 0 1 0 rt (initDHKey C (rSessPriv r)) None None nym true.
Lemma encrypt_state C a r w nym w' fke tke fk tk : pubKey (idUid (eFrom a)) = Ok fke -> pub32 fke = Ok fk -> pubKey (eTo a) = Ok tke -> pub32 tke = Ok tk ->
  encrypt C a r w = (Ok nym, w') ->
  let key := calcStateKey C fk tk in
  match (if eStatus a =? StatusReset then None else mget key (states (wStore w))) with
  | Some ss => mget key (states (wStore w')) = Some (stateNext C a r ss)
  | None => exists rt ny, mget (uIdentity (eTo a)) (pubKEs (wStore w)) = Some (rt, ny) /\ mget key (states (wStore w')) = Some (stateNew C r rt ny)
  end.
Proof.
  intros F1 F2 T1 T2 E key. apply encrypt_ok in E as (ss & w1 & w2 & hp & sk & mk & body & fk' & tk' & [O1 _ _ _ _ _ O7 O8 O9]).
  rewrite F1 in O7. cbn [rbind] in O7. rewrite F2 in O7. apply Ok_inj in O7. subst fk'.
  rewrite T1 in O8. cbn [rbind] in O8. rewrite T2 in O8. apply Ok_inj in O8. subst tk'. fold key in O9.
  assert (MS : mget key (states (wStore w')) = Some (bumped ss)).
  { rewrite O9, steps_ap. unfold ap. cbn [fold_left]. cbn [apply_op states]. apply mget_mset_same. }
  rewrite MS. clear O9 MS. unfold encState in O1. rewrite F1, lift_bind, F2, lift_bind, T1, lift_bind, T2, lift_bind in O1. cbv zeta in O1. fold key in O1.
  assert (NEW : forall oss, (dom oss <- (fun w => (Ok oss, w)); match oss with None =>
      (dom (recipientTemp, nym) <- getPublicKeyEntry (uIdentity (eTo a));
       dom _ <- addSessionKey (initDHKey C (rSessPriv r)) (rSessPriv r) (eCleanup a);
       dom fromPriv <- lift (priv32 fke (idEncPriv (eFrom a)));
       dom _ <- rootKeyAgreementSender C (dhpub C (rHeaderPriv r)) (uIdentity (idUid (eFrom a))) (uIdentity (eTo a)) (initDHKey C (rSessPriv r)) (rSessPriv r)
               fke fromPriv recipientTemp tke None (numKeys (eNumKeys a));
       dom _ <- emit (OSetState key (mkState 0 0 0 recipientTemp (initDHKey C (rSessPriv r)) None None nym true));
       mret (nym, mkState 0 0 0 recipientTemp (initDHKey C (rSessPriv r)) None None nym true))
     | Some ss0 => if eStatus a =? StatusError then mret ([], ss0)
       else match stNextSender ss0 with
            | None => if rCoin r then dom (_, ss') <- setNextSenderSessionPub C ss0 key (rSessPriv r) (eCleanup a); mret (stNym ss0, ss') else mret (stNym ss0, ss0)
            | Some _ => mret (stNym ss0, ss0) end end) w = (Ok (nym, ss), w1) ->
    match oss with Some ss0 => Some (bumped ss) = Some (stateNext C a r ss0)
    | None => exists rt ny, mget (uIdentity (eTo a)) (pubKEs (wStore w)) = Some (rt, ny) /\ Some (bumped ss) = Some (stateNew C r rt ny) end).
  { intros oss H. apply mbind_ok in H as (o & v & Q & H). apply okpair in Q as [<- <-]. destruct oss as [ss0|].
    - unfold stateNext, nextOf. destruct (eStatus a =? StatusError); [apply okpair in H as [H _]; apply pair_inj in H as [_ <-]; reflexivity|].
      destruct (stNextSender ss0) as [k|] eqn:EK; [apply okpair in H as [H _]; apply pair_inj in H as [_ <-]; unfold bumped; rewrite EK; reflexivity|].
      destruct (rCoin r); [|apply okpair in H as [H _]; apply pair_inj in H as [_ <-]; unfold bumped; rewrite EK; reflexivity].
      apply mbind_ok in H as ([k ss'] & v & Q & H). apply okpair in H as [H _]. apply pair_inj in H as [_ <-].
      unfold setNextSenderSessionPub in Q. apply mbind_ok in Q as (u & v1 & _ & Q). apply mbind_ok in Q as (u' & v2 & _ & Q). apply okpair in Q as [Q _]. apply pair_inj in Q as [_ <-]. reflexivity.
    - apply mbind_ok in H as ([rt ny] & v & Q & H). exists rt, ny. split.
      + unfold getPublicKeyEntry, ask in Q. destruct (mget (uIdentity (eTo a)) (pubKEs (wStore w))) as [[k n]|]; [|discriminate].
        apply okpair in Q as [Q _]. apply pair_inj in Q as [<- <-]. reflexivity.
      + apply mbind_ok in H as (u1 & v1 & _ & H). apply mbind_ok in H as (u2 & v2 & _ & H). apply mbind_ok in H as (u3 & v3 & _ & H). apply mbind_ok in H as (u4 & v4 & _ & H).
        apply okpair in H as [H _]. apply pair_inj in H as [_ <-]. reflexivity. }
  destruct (eStatus a =? StatusReset).
  - apply (NEW None). exact O1.
  - apply NEW. exact O1.
Qed.

Section Track.
Variable C : Crypto.
Variable P : bool -> party.
Lemma send_track p a r st nym w : sendOk C P p a r -> run (encrypt C a r) st = (Ok nym, w) ->
  match (if eStatus a =? StatusReset then None else mget (stateKey C P p) (states st)) with
  | Some ss => mget (stateKey C P p) (states (wStore w)) = Some (stateNext C a r ss)
  | None => exists rt ny, mget (pName (P (negb p))) (pubKEs st) = Some (rt, ny) /\ mget (stateKey C P p) (states (wStore w)) = Some (stateNew C r rt ny)
  end.
Proof.
  intros SO E. destruct (sk_from _ _ _ _ _ SO) as [[F1 [ks F2]] F3]. destruct (sk_to _ _ _ _ _ SO) as [T1 [ks' T2]].
  pose proof (encrypt_state C a r _ nym w _ _ _ _ (pubKey_cons _ _ _ F2) (initDHKey_pub32 _ _) (pubKey_cons _ _ _ T2) (initDHKey_pub32 _ _) E) as Q.
  cbv zeta in Q. cbn [wStore] in Q. rewrite T1 in Q. exact Q.
Qed.
End Track.
