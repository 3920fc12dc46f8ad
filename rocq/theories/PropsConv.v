(* Properties of conversations: C14.  The system is in ConvModel.v. *)
From Verif Require Import Base Base64Model CodecModel JsonModel Maps CryptoModel StoreModel KeysModel MsgFormatModel HeaderModel ProtoModel ProtoProofs ConvModel ConvSteps ConvInv ConvRecv ConvMain ConvEnabled ConvTrack ConvToy ConvExample ConvLimit.
Local Open Scope N_scope.

Lemma noColl_less C P used more : noColl C P (more ++ used) -> noColl C P used.
Proof.
  intros N s t S T. apply N; [destruct S as [(k & I & E)|(p & a & b & I & J & E)]|destruct T as [(k & I & E)|(p & a & b & I & J & E)]].
  all: try (left; exists k; split; [apply in_or_app; now right|exact E]); right; exists p, a, b; repeat split; try exact E; apply in_or_app; now right.
Qed.

(* What a receiver gets for the message that a call of Encrypt made: the sender's name, the content (for status OK) and the
   signature of its hash if a signature key was given. *)
Definition delivered (C : Crypto) (P : bool -> party) (p : bool) (ra : decArgs) (m : sent) (st : store) : Prop :=
  let content := if eStatus (sArgs m) =? StatusOK then eContent (sArgs m) else [] in
  let sig := match eSigKey (sArgs m) with Some k => b64enc (edsign C k (sha512 C content)) | None => [] end in
  exists w, run (receive C ra (sWire m)) st = (Ok (pName (P (negb p)), sig), w) /\ wOut w = content.

(* The full statement is [inReach] left out; it is refuted below.  Messages may arrive in any order, others may be lost. *)
Theorem C14_decrypts_partial : forall C P c0 c p ra l1 m l2,
  reach C P c0 c -> cNet c (negb p) = l1 ++ m :: l2 -> recvOk C P p ra -> fresh C [dPriv ra] (cUsed c) -> noColl C P (dPriv ra :: cUsed c) ->
  inReach ra m (cStore c p) -> delivered C P p ra m (cStore c p).
Proof.
  intros C P c0 c p ra l1 m l2 R NT RO FR NC IR. destruct (reach_inv C P _ _ R (noColl_less C P _ [dPriv ra] NC)) as [g I].
  destruct (recv_inv C P c g p ra l1 m l2 I NC NT RO FR) as [(_ & w & g' & E & O & _)|(Q & _)]; [|contradiction].
  exists w. split; [exact E|exact O].
Qed.
(* With the default number of message keys (msg/msg.go:28-31) the first 301 messages of every session are decrypted. *)
Theorem C14_first_partial : forall C P c0 c p ra l1 m l2,
  reach C P c0 c -> cNet c (negb p) = l1 ++ m :: l2 -> recvOk C P p ra -> fresh C [dPriv ra] (cUsed c) -> noColl C P (dPriv ra :: cUsed c) ->
  dNumKeys ra = 0 -> sNum m <= 300 -> delivered C P p ra m (cStore c p).
Proof.
  intros C P c0 c p ra l1 m l2 R NT RO FR NC D L. eapply C14_decrypts_partial; try eassumption. right. exists 6. rewrite D. change (numKeys 0) with 50. lia.
Qed.
(* Out of reach, Decrypt reports an error and writes nothing. *)
Theorem C14_too_far_partial : forall C P c0 c p ra l1 m l2,
  reach C P c0 c -> cNet c (negb p) = l1 ++ m :: l2 -> recvOk C P p ra -> fresh C [dPriv ra] (cUsed c) -> noColl C P (dPriv ra :: cUsed c) ->
  ~ inReach ra m (cStore c p) ->
  exists w, run (receive C ra (sWire m)) (cStore c p) = (Err "msg: requested number of message keys too large", w) /\ wOut w = [].
Proof.
  intros C P c0 c p ra l1 m l2 R NT RO FR NC IR. destruct (reach_inv C P _ _ R (noColl_less C P _ [dPriv ra] NC)) as [g I].
  destruct (recv_inv C P c g p ra l1 m l2 I NC NT RO FR) as [(Q & _)|(_ & w & g' & E & O & _)]; [contradiction|].
  exists w. split; [exact E|exact O].
Qed.
(* Sending: in every state of the conversation Encrypt succeeds if there is a session state (and no reset is asked for) or
   a published key. *)
Theorem C14_sends_partial : forall C P c0 c p a r,
  reach C P c0 c -> sendOk C P p a r -> writable C a r -> fresh C [rHeaderPriv r; rSessPriv r] (cUsed c) -> noColl C P (rHeaderPriv r :: rSessPriv r :: cUsed c) ->
  mget (pName (P (negb p))) (pubKEs (cStore c p)) <> None \/ (eStatus a <> StatusReset /\ mget (stateKey C P p) (states (cStore c p)) <> None) ->
  exists nym w, run (encrypt C a r) (cStore c p) = (Ok nym, w).
Proof.
  intros C P c0 c p a r R SO W FR NC EN. destruct (reach_inv C P _ _ R (noColl_less C P _ [rHeaderPriv r; rSessPriv r] NC)) as [g I].
  eapply send_enabled; eassumption.
Qed.

(* The statement of C14 fails: messages in order, none lost, one party writes without getting an answer. *)
Theorem C14_refuted : exists C P c0 c p ra m l,
  noColl C P (dPriv ra :: cUsed c) /\ orderly C P c0 c /\ cNet c (negb p) = m :: l /\ recvOk C P p ra /\ fresh C [dPriv ra] (cUsed c) /\
  forall x w, run (receive C ra (sWire m)) (cStore c p) <> (Ok x, w).
Proof.
  destruct oneWay_fails as (c & m & OS & FR & w & E). exists toyI, cxP, cxStart, c, false, (owRa 400), m, [].
  split; [apply toyI_noColl|]. split; [exact (os_ord _ _ _ OS)|]. split; [exact (os_net _ _ _ OS)|]. split; [apply cx_recvOk|]. split; [exact FR|].
  intros x w' Q. rewrite E in Q. discriminate.
Qed.

(* cases that meet the hypotheses: message 60 of a session, for which the receiver has to make 50 more keys *)
Example C14_case : exists c m, reach toyI cxP cxStart c /\ cNet c true = [m] /\ recvOk toyI cxP false (owRa 60) /\ fresh toyI [dPriv (owRa 60)] (cUsed c) /\
  noColl toyI cxP (dPriv (owRa 60) :: cUsed c) /\ sNum m = 60 /\ inReach (owRa 60) m (cStore c false) /\ dNumKeys (owRa 60) = 0 /\ delivered toyI cxP false (owRa 60) m (cStore c false).
Proof.
  destruct (oneWay_all (N.to_nat 60)) as [c O]; [lia|]. rewrite N2Nat.id in O. destruct (oneWay_send 60 c ltac:(lia) O) as (c1 & m & OS).
  pose proof (ow_fresh 60 c1 m ltac:(lia) OS) as FR. exists c1, m. assert (R : reach toyI cxP cxStart c1) by (apply orderly_reach, (os_ord _ _ _ OS)).
  assert (NU : sNum m = 60) by exact (os_num _ _ _ OS). assert (IR : inReach (owRa 60) m (cStore c1 false)).
  { right. exists 2. change (numKeys (dNumKeys (owRa 60))) with 50. rewrite NU. lia. }
  split; [exact R|]. split; [exact (os_net _ _ _ OS)|]. split; [apply cx_recvOk|]. split; [exact FR|]. split; [apply toyI_noColl|]. split; [exact NU|]. split; [exact IR|].
  split; [reflexivity|]. eapply (C14_decrypts_partial toyI cxP cxStart c1 false (owRa 60) [] m []); [exact R|exact (os_net _ _ _ OS)|apply cx_recvOk|exact FR|apply toyI_noColl|exact IR].
Qed.
Example C14_too_far_case : exists c m, reach toyI cxP cxStart c /\ cNet c true = [m] /\ recvOk toyI cxP false (owRa 400) /\ fresh toyI [dPriv (owRa 400)] (cUsed c) /\
  noColl toyI cxP (dPriv (owRa 400) :: cUsed c) /\ ~ inReach (owRa 400) m (cStore c false).
Proof.
  destruct oneWay_fails as (c & m & OS & FR & w & E). exists c, m. assert (R : reach toyI cxP cxStart c) by (apply orderly_reach, (os_ord _ _ _ OS)).
  split; [exact R|]. split; [exact (os_net _ _ _ OS)|]. split; [apply cx_recvOk|]. split; [exact FR|]. split; [apply toyI_noColl|].
  intros IR. destruct (C14_decrypts_partial toyI cxP cxStart c false (owRa 400) [] m [] R (os_net _ _ _ OS) (cx_recvOk _ _) FR (toyI_noColl _ _) IR) as (w' & E' & _).
  rewrite E in E'. discriminate.
Qed.
(* the first message, and a further one *)
Example C14_sends_case : reach toyI cxP cxStart cxStart /\ sendOk toyI cxP true owArgs (owRnd 0) /\ writable toyI owArgs (owRnd 0) /\
  fresh toyI [rHeaderPriv (owRnd 0); rSessPriv (owRnd 0)] (cUsed cxStart) /\ noColl toyI cxP (rHeaderPriv (owRnd 0) :: rSessPriv (owRnd 0) :: cUsed cxStart) /\
  mget (pName (cxP false)) (pubKEs (cStore cxStart true)) <> None.
Proof.
  split; [constructor; apply cx_start|]. split; [apply ow_sendOk|]. split; [apply ow_writable|]. split.
  - apply (keys_fresh [5; 6; 1; 2; 3; 4]); [|repeat constructor; lia].
    repeat (constructor; [cbn [In]; intros Q; repeat (destruct Q as [Q|Q]; [discriminate|]); exact Q|]). constructor.
  - split; [apply toyI_noColl|]. cbn [cxStart cStore cxP pName]. unfold cxStore. cbn [pubKEs mget negb]. rewrite beq_refl. discriminate.
Qed.
Example C14_more_case : exists c, reach toyI cxP cxStart c /\ eStatus owArgs <> StatusReset /\ mget (stateKey toyI cxP true) (states (cStore c true)) <> None.
Proof.
  destruct (oneWay_all (N.to_nat 60)) as [c O]; [lia|]. rewrite N2Nat.id in O. exists c. split; [apply orderly_reach, (ow_ord _ _ O)|]. split; [discriminate|].
  destruct (ow_state _ _ O ltac:(lia)) as (ss & -> & _). discriminate.
Qed.

Print Assumptions C14_decrypts_partial.
Print Assumptions C14_first_partial.
Print Assumptions C14_too_far_partial.
Print Assumptions C14_sends_partial.
Print Assumptions C14_refuted.
