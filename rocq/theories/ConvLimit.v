(* A conversation in which only one party writes: with the default number of message keys the receiver cannot decrypt
   message number 400 of the session. *)
From Verif Require Import Base Base64Model Base64Proofs CodecModel CodecProofs JsonModel JsonProofs Maps CryptoModel StoreModel KeysModel KeysProofs MsgFormatModel MsgFormatProofs HeaderModel HeaderProofs PropsHeader ProtoModel ProtoProofs ProtoFirst ConvModel ConvSteps ConvInv ConvProofs ConvSend ConvRecv ConvMain ConvEnabled ConvTrack ConvToy ConvExample.
Local Open Scope N_scope.

(* number of stored keys before message k *)
Definition keysAt (k : N) : N := if k <=? 50 then 50 else if k <=? 100 then 100 else if k <=? 200 then 200 else 400.
Lemma keysAt_next k : k < 400 -> keysAt (k + 1) = grown 50 k (keysAt k).
Proof.
  intros H. unfold keysAt, grown. destruct (N.eq_dec k 50) as [->|N1]; [reflexivity|]. destruct (N.eq_dec k 100) as [->|N2]; [reflexivity|].
  destruct (N.eq_dec k 200) as [->|N3]; [reflexivity|].
  destruct (N.leb_spec k 50), (N.leb_spec k 100), (N.leb_spec k 200), (N.leb_spec (k + 1) 50), (N.leb_spec (k + 1) 100), (N.leb_spec (k + 1) 200); try lia;
    match goal with |- context [?a <=? k] => destruct (N.leb_spec a k) end; lia.
Qed.
Lemma keysAt_reach k : k < 400 -> k < keysAt k \/ exists q, k <= q * 50 /\ q * 50 <= 301.
Proof.
  intros H. unfold keysAt. destruct (N.leb_spec k 50); [right; exists 1; lia|]. destruct (N.leb_spec k 100); [right; exists 2; lia|].
  destruct (N.leb_spec k 200); [right; exists 4; lia|]. left. exact H.
Qed.
Definition owArgs : encArgs := cxArgs true (str "hello") 0.
Definition owRnd (k : N) : encRnd := cxRnd (5 + 3 * k) (6 + 3 * k) false.
Definition owRa (k : N) : decArgs := cxRa false (7 + 3 * k).

Lemma ow_sendOk k : sendOk toyI cxP true owArgs (owRnd k).
Proof.
  refine (cx_sendOk true (str "hello") 0 (5 + 3 * k) (6 + 3 * k) false _ eq_refl). apply wfbb_spec; reflexivity.
Qed.
Lemma ow_writable k : writable toyI owArgs (owRnd k).
Proof. refine (cx_writable true (str "hello") 0 (5 + 3 * k) (6 + 3 * k) false _ eq_refl). vm_compute; discriminate. Qed.

Record oneWay (k : N) (c : conv) : Prop := {
  ow_ord : orderly toyI cxP cxStart c;
  ow_used : exists l, cUsed c = map keyN l /\ NoDup l /\ Forall (fun n => n < 5 + 3 * k) l;
  ow_net : cNet c true = [];
  ow_pub : k = 0 -> c = cxStart;
  ow_state : k <> 0 -> exists ss, mget (stateKey toyI cxP true) (states (cStore c true)) = Some ss /\ stMsgCount ss = k;
  ow_keys : k <> 0 -> storedKeys 50 (sessOf toyI cxP true (cStore c true)) (cStore c false) = keysAt k }.
(* sending message k *)
Record owSent (k : N) (c : conv) (m : sent) : Prop := {
  os_ord : orderly toyI cxP cxStart c;
  os_used : exists l, cUsed c = map keyN l /\ NoDup l /\ Forall (fun n => n < 7 + 3 * k) l;
  os_net : cNet c true = [m];
  os_num : sNum m = k;
  os_args : sArgs m = owArgs;
  os_sess : sSess m = sessOf toyI cxP true (cStore c true);
  os_state : exists ss, mget (stateKey toyI cxP true) (states (cStore c true)) = Some ss /\ stMsgCount ss = k + 1;
  os_keys : storedKeys 50 (sSess m) (cStore c false) = keysAt k }.
Lemma oneWay_send k c : k < 1000 -> oneWay k c -> exists c' m, owSent k c' m.
Proof.
  intros L [O (l & U & N & F) NT PB ST KE].
  destruct (reach_inv toyI cxP _ _ (orderly_reach _ _ _ _ O) (toyI_noColl _ _)) as [g I].
  pose proof (ow_sendOk k) as SO.
  assert (N2 : NoDup ([5 + 3 * k; 6 + 3 * k] ++ l)).
  { cbn [app]. constructor; [|constructor; [|exact N]].
    - intros [Q|Q]; [lia|]. rewrite Forall_forall in F. specialize (F _ Q). lia.
    - intros Q. rewrite Forall_forall in F. specialize (F _ Q). lia. }
  assert (FR : fresh toyI [rHeaderPriv (owRnd k); rSessPriv (owRnd k)] (cUsed c)).
  { unfold fresh, owRnd, cxRnd. cbn [rHeaderPriv rSessPriv]. rewrite U. apply (keys_fresh ([5 + 3 * k; 6 + 3 * k] ++ l) N2).
    cbn [app]. constructor; [lia|]. constructor; [lia|]. eapply Forall_impl; [|exact F]. cbn beta. lia. }
  destruct (send_enabled toyI cxP c g true owArgs (owRnd k) I (toyI_noColl _ _) SO) as (nym & w & E).
  - apply ow_writable.
  - exact FR.
  - destruct (N.eq_dec k 0) as [->|NZ].
    + left. rewrite (PB eq_refl). cbn [cxStart cStore cxP pName]. unfold cxStore. cbn [pubKEs mget negb]. rewrite beq_refl. discriminate.
    + right. split; [discriminate|]. destruct (ST NZ) as (ss & -> & _). discriminate.
  - assert (NU : numOf toyI cxP true owArgs (cStore c true) = k).
    { unfold numOf. change (eStatus owArgs =? StatusReset) with false. cbv iota. destruct (N.eq_dec k 0) as [->|NZ]; [rewrite (PB eq_refl); reflexivity|].
      destruct (ST NZ) as (ss & -> & Q). exact Q. }
    pose proof (send_track toyI cxP true owArgs (owRnd k) _ nym w SO E) as TR. change (eStatus owArgs =? StatusReset) with false in TR. cbv iota in TR.
    pose proof (SoSend toyI cxP true owArgs (owRnd k) c nym w SO ltac:(rewrite NU; lia) FR E) as STP. rewrite NU in STP.
    eexists _, _. constructor; cbn [cUsed cNet cStore].
    + eapply OrdStep; [exact O|exact STP].
    + exists (5 + 3 * k :: 6 + 3 * k :: l). split; [cbn [map cUsed]; rewrite U; reflexivity|]. split; [exact N2|].
      constructor; [lia|]. constructor; [lia|]. eapply Forall_impl; [|exact F]. cbn beta. lia.
    + cbn [upd Bool.eqb]. unfold upd. cbn [Bool.eqb]. rewrite NT. reflexivity.
    + reflexivity.
    + reflexivity.
    + reflexivity.
    + unfold upd. cbn [Bool.eqb]. destruct (N.eq_dec k 0) as [->|NZ].
      * rewrite (PB eq_refl) in TR. destruct TR as (rt & ny & _ & TR). exists (stateNew toyI (owRnd 0) rt ny). split; [exact TR|reflexivity].
      * destruct (ST NZ) as (ss & Q1 & Q2). rewrite Q1 in TR. eexists. split; [exact TR|]. cbn [stateNext stMsgCount]. rewrite Q2. unfold u64. apply N.mod_small. lia.
    + unfold upd. cbn [Bool.eqb sSess]. destruct (N.eq_dec k 0) as [->|NZ]; [rewrite (PB eq_refl); reflexivity|].
      rewrite <- (KE NZ). f_equal. unfold sessOf. destruct (ST NZ) as (ss & Q1 & Q2). rewrite Q1 in TR. rewrite TR, Q1. reflexivity.
Qed.
Lemma ow_fresh k c m : k < 1000 -> owSent k c m -> fresh toyI [dPriv (owRa k)] (cUsed c).
Proof.
  intros L [_ (l & U & N & F) _ _ _ _ _ _]. unfold fresh, owRa, cxRa. cbn [dPriv]. rewrite U. apply (keys_fresh ([7 + 3 * k] ++ l)).
  - constructor; [|exact N]. intros Q. rewrite Forall_forall in F. specialize (F _ Q). lia.
  - cbn [app]. constructor; [lia|]. eapply Forall_impl; [|exact F]. cbn beta. lia.
Qed.
(* receiving it *)
Lemma oneWay_recv k c m : k < 400 -> owSent k c m -> exists c', oneWay (k + 1) c'.
Proof.
  intros L OS. pose proof (ow_fresh k c m ltac:(lia) OS) as FR. destruct OS as [O (l & U & N & F) NT NU AR SE ST KE].
  destruct (reach_inv toyI cxP _ _ (orderly_reach _ _ _ _ O) (toyI_noColl _ _)) as [g I].
  destruct (recv_inv toyI cxP c g false (owRa k) [] m [] I (toyI_noColl _ _) NT (cx_recvOk false _) FR) as [(IR & w & g' & E & _ & ST' & _)|(IR & _)].
  2:{ exfalso. apply IR. unfold inReach. cbv zeta. change (numKeys (dNumKeys (owRa k))) with 50. rewrite KE, NU. apply keysAt_reach. exact L. }
  change (numKeys (dNumKeys (owRa k))) with 50 in ST'. rewrite KE, NU, <- keysAt_next in ST' by exact L.
  pose proof (SoRecv toyI cxP false (owRa k) c m [] _ w NT (cx_recvOk false _) FR E) as STP.
  eexists. constructor; cbn [cUsed cNet cStore].
  - eapply OrdStep; [exact O|exact STP].
  - exists (7 + 3 * k :: l). cbn [cUsed map]. split; [rewrite U; reflexivity|]. split.
    + constructor; [|exact N]. intros Q. rewrite Forall_forall in F. specialize (F _ Q). lia.
    + constructor; [lia|]. eapply Forall_impl; [|exact F]. cbn beta. lia.
  - reflexivity.
  - lia.
  - intros _. unfold upd. cbn [Bool.eqb]. exact ST.
  - intros _. rewrite SE in ST'. exact ST'.
Qed.
Lemma oneWay_start : oneWay 0 cxStart.
Proof.
  constructor.
  - constructor. apply cx_start.
  - exists [1; 2; 3; 4]. split; [reflexivity|]. split; [|repeat constructor; lia].
    repeat (constructor; [cbn [In]; intros Q; repeat (destruct Q as [Q|Q]; [discriminate|]); exact Q|]). constructor.
  - reflexivity.
  - reflexivity.
  - intros Q. exfalso. apply Q. reflexivity.
  - intros Q. exfalso. apply Q. reflexivity.
Qed.
Lemma oneWay_all n : N.of_nat n <= 400 -> exists c, oneWay (N.of_nat n) c.
Proof.
  induction n as [|n IH]; intros L; [exists cxStart; exact oneWay_start|].
  destruct IH as [c O]; [lia|]. assert (L1 : N.of_nat n < 400) by lia. assert (L2 : N.of_nat n < 1000) by lia.
  destruct (oneWay_send _ _ L2 O) as (c1 & m & OS). destruct (oneWay_recv _ _ _ L1 OS) as [c2 O2].
  exists c2. replace (N.of_nat (S n)) with (N.of_nat n + 1) by lia. exact O2.
Qed.
Theorem oneWay_fails : exists c m, owSent 400 c m /\ fresh toyI [dPriv (owRa 400)] (cUsed c) /\
  exists w, run (receive toyI (owRa 400) (sWire m)) (cStore c false) = (Err "msg: requested number of message keys too large", w).
Proof.
  destruct (oneWay_all (N.to_nat 400)) as [c O]; [lia|]. rewrite N2Nat.id in O. destruct (oneWay_send 400 c ltac:(lia) O) as (c1 & m & OS).
  pose proof (ow_fresh 400 c1 m ltac:(lia) OS) as FR. exists c1, m. split; [exact OS|]. split; [exact FR|].
  destruct OS as [O1 _ NT NU _ _ _ KE].
  destruct (reach_inv toyI cxP _ _ (orderly_reach _ _ _ _ O1) (toyI_noColl _ _)) as [g I].
  destruct (recv_inv toyI cxP c1 g false (owRa 400) [] m [] I (toyI_noColl _ _) NT (cx_recvOk false _) FR) as [(IR & _)|(IR & w & g' & E & _)]; [|exists w; exact E].
  exfalso. unfold inReach in IR. cbv zeta in IR. change (numKeys (dNumKeys (owRa 400))) with 50 in IR. rewrite KE, NU in IR. change (keysAt 400) with 400 in IR.
  destruct IR as [IR|(q & Q1 & Q2)]; lia.
Qed.
