(* When Encrypt succeeds in a conversation. *)
From Verif Require Import Base Base64Model Base64Proofs CodecModel CodecProofs JsonModel JsonProofs Maps CryptoModel StoreModel KeysModel KeysProofs MsgFormatModel MsgFormatProofs HeaderModel HeaderProofs PropsKeys PropsHeader ProtoModel ProtoProofs ProtoFirst PropsProto ConvModel ConvSteps ConvInv ConvProofs ConvSend ConvRecv ConvMain.
Local Open Scope N_scope.

Lemma newHeader_builds C from to rth sp next seen nym sc mc kc rand st tk tks fk fks :
  lenN kc = 204 -> uPubKeys to = tk :: tks -> uPubKeys from = fk :: fks ->
  lenN (uIdentity from) <= 254 -> lenN nym <= 1568 -> lenN (uidJSON from) <= 2004 -> 32 <= lenN rand ->
  exists h, newHeader C from to rth sp next seen nym sc mc kc rand st = Ok h.
Proof.
  intros K T F L1 L2 L3 LR. unfold newHeader. rewrite K. change (204 =? EntryBase64Len) with true. cbn [negb].
  rewrite (pubKey_cons _ _ _ T). cbn [rbind]. rewrite (pubKey_cons _ _ _ F). cbn [rbind]. cbv zeta.
  assert (HL : exists l, headerPadLen (uIdentity from) nym (uidJSON from) next seen 0 sc mc = Ok l /\ (0 <= l)%Z).
  { unfold headerPadLen, IdMaxLen, MaxNymAddress, MaxUIDMessage. cbv zeta.
    destruct (N.ltb_spec 254 (lenN (uIdentity from))); [lia|]. destruct (N.ltb_spec 1568 (lenN nym)); [lia|]. destruct (N.ltb_spec 2004 (lenN (uidJSON from))); [lia|].
    eexists. split; [reflexivity|]. assert (D : forall x, digitsCount x <= 20).
    { intros x. unfold digitsCount. repeat match goal with |- context [if ?b then _ else _] => destruct b end; lia. }
    pose proof (D 0). pose proof (D sc). pose proof (D mc). unfold wiggleRoom. destruct next, seen; lia. }
  destruct HL as (l & -> & Hl). cbn [rbind].
  destruct (paddingGenerate_succeeds (fun k n => ctr C k (zeros 16) n) (l / 2 + l mod 2)%Z rand) as [p Hp].
  - intros. apply ctr_len.
  - lia.
  - exact LR.
  - unfold padGen. rewrite Hp. cbn [rbind]. eexists; reflexivity.
Qed.

(* a UID message as the program creates it, sizes within the limits, enough random bytes *)
Record writable (C : Crypto) (a : encArgs) (r : encRnd) : Prop := {
  wr_uid : createdUid C false (idUid (eFrom a));
  wr_nym : unescaped (eNym a);
  wr_kc : unescaped (eKeychain a) /\ lenN (eKeychain a) = 204;
  wr_len : lenN (uIdentity (idUid (eFrom a))) <= 254 /\ lenN (eNym a) <= 1568 /\ lenN (uidJSON (idUid (eFrom a))) <= 2004;
  wr_status : eStatus a < 10;
  wr_content : lenN (eContent a) <= 41691;
  wr_rand : lenN (rPad r) = 32 /\ lenN (rHdrPad r) = 32 }.

Section Enabled.
Variable C : Crypto.
Variable P : bool -> party.
Lemma header_enabled p a r g ss x y on os : sendOk C P p a r -> writable C a r -> stG C P p g ss x y on os -> exists hp, encHeader C a r ss = Ok hp /\ lenN hp = 7194.
Proof.
  intros SO [W1 W2 [W3 W3'] (W4 & W5 & W6) W7 W8 [W9 W10]] G. destruct (sk_from _ _ _ _ _ SO) as [[F1 [ks F2]] F3]. destruct (sk_to _ _ _ _ _ SO) as [T1 [ks' T2]].
  pose proof G as [S1 S2 S3 S4 S5 S6 _ _ _ _ _].
  destruct (newHeader_builds C (idUid (eFrom a)) (eTo a) (keHash (stRecipTemp ss)) (stSenderPub ss) (stNextSender ss) (stNextSeen ss) (eNym a) (stSessCount ss) (stMsgCount ss)
    (eKeychain a) (rHdrPad r) (eStatus a) _ _ _ _ W3' T2 F2 W4 W5 W6 ltac:(lia)) as [h H].
  assert (A : hdrArgs C (idUid (eFrom a)) (eTo a) (keHash (stRecipTemp ss)) (stSenderPub ss) (stNextSender ss) (stNextSeen ss) (stSessCount ss) (stMsgCount ss)
    (eKeychain a) (rHdrPad r) (eStatus a)).
  { constructor; try assumption.
    - eexists _, _. split; [exact T2|]. eexists; reflexivity.
    - eexists _, _. split; [exact F2|]. eexists; reflexivity.
    - exists (stRecipTemp ss). split; [|reflexivity]. rewrite S2. eexists; reflexivity.
    - rewrite S1. eexists; reflexivity.
    - rewrite S3. destruct on; [eexists; reflexivity|exact I].
    - rewrite S4. destruct os; [eexists; reflexivity|exact I].
    - apply (sk_hpad _ _ _ _ _ SO). }
  destruct (C03_created_uid_accepted _ _ _ _ _ _ _ _ _ _ _ _ _ _ (dhpub C (pSec (P (negb p)))) (rHeaderPriv r) (rNonce r) A W1 W2 H) as [_ [hp HP]].
  exists hp. split.
  - unfold encHeader. rewrite H. cbn [rbind]. unfold publicKey. rewrite (pubKey_cons _ _ _ T2). cbn [rbind initDHKey kePub].
    rewrite b64dec_enc by apply dhpub_wf. rewrite dhpub_len. exact HP.
  - eapply C03_packet_fixed_size; [exact A|exact H|apply (sk_nonce _ _ _ _ _ SO)|exact HP].
Qed.
Lemma send_enabled c g p a r : inv C P c g -> noColl C P (rHeaderPriv r :: rSessPriv r :: cUsed c) -> sendOk C P p a r -> writable C a r ->
  fresh C [rHeaderPriv r; rSessPriv r] (cUsed c) ->
  mget (pName (P (negb p))) (pubKEs (cStore c p)) <> None \/ (eStatus a <> StatusReset /\ mget (stateKey C P p) (states (cStore c p)) <> None) ->
  exists nym w, run (encrypt C a r) (cStore c p) = (Ok nym, w).
Proof.
  intros I HC SO W FR EN. set (used := rHeaderPriv r :: rSessPriv r :: cUsed c) in *.
  assert (KU : NoDup (map (dhpub C) used)) by exact FR.
  destruct I as [I1 I2 I3 I4 I5 I6].
  assert (T : tagsOk P used g) by (eapply tags_grow; [|exact I2]; intros z Hz; right; right; exact Hz).
  assert (N1 : gT g (rHeaderPriv r) = None) by (eapply fresh_tag; [exact I2|exact FR|now left]).
  assert (N2 : gT g (rSessPriv r) = None) by (eapply fresh_tag; [exact I2|exact FR|right; now left]).
  assert (NE : rHeaderPriv r <> rSessPriv r).
  { intros Q. cbn [used map] in KU. inversion KU as [|? ? K1 K2]; subst. apply K1. left. now rewrite Q. }
  unfold run. set (w0 := mkWorld (cStore c p) [] []) in *.
  destruct (send_state C P used KU HC p a r w0 g (I3 p) T SO (I4 p) (or_introl eq_refl) (or_intror (or_introl eq_refl)) N1 N2 NE)
    as [(Q1 & Q2 & _)|(nym & ss & w1 & l & g1 & x & y & on & os & Q1 & Q2 & Q3 & Q4)].
  { exfalso. change (wStore w0) with (cStore c p) in *. destruct EN as [EN|[EN1 EN2]]; [contradiction|]. destruct Q2; contradiction. }
  destruct Q2 as [R1 R2 R3 R4 R5 R6 R7 R8 R9 R10]. subst w1.
  assert (EW : wStore (steps w0 l) = ap l (cStore c p)) by apply steps_ap. change (wStore w0) with (cStore c p) in *. rewrite <- EW in R2, R4.
  destruct (send_key C P used KU HC p a r (steps w0 l) g1 ss x y on os R2 R5 SO R3 R4) as (root & cr & l2 & s & K1 & _).
  destruct (header_enabled p a r g1 ss x y on os SO W R3) as (hp & H1 & H2).
  destruct (C01_never_fails_on_size C a r w0 nym ss _ hp _ _ _ Q1 H1 H2 K1 (wr_content _ _ _ W)) as (w' & E & _).
  - apply (sk_iv _ _ _ _ _ SO).
  - apply (wr_rand _ _ _ W).
  - exists nym, w'. exact E.
Qed.
End Enabled.
