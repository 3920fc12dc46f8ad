(* Lemmas for the way of a message: encoded structures consist of bytes, sizes, the parts of the transport. *)
From Verif Require Import Base Base64Model Base64Proofs CodecModel CodecProofs JsonModel IdentityModel SqlModel MsgDBModel CryptoModel Asn1Model Asn1Proofs
  MixModel MixProofs MixClientModel CtrlModel PipeModel JourneyModel PropsMix PropsMixClient.
Local Open Scope N_scope.

Definition dvWf (v : dv) : Prop := match v with DOct b | DStr b => wfb b | _ => True end.
Lemma wfb_cons x l : x < 256 -> wfb l -> wfb (x :: l). Proof. intros; constructor; assumption. Qed.
Lemma nbytesF_le f n : (nbytesF f n <= S f)%nat.
Proof. revert n; induction f as [|f IH]; intros n; cbn [nbytesF]; [lia|]. destruct (255 <? n); [specialize (IH (n / 256)); lia|lia]. Qed.
Lemma derLen_wf n : wfb (derLen n).
Proof.
  unfold derLen. destruct (N.ltb_spec n 128); [repeat constructor; lia|]. apply wfb_cons; [|apply wfb_be]. pose proof (nbytesF_le 7 n). lia.
Qed.
Lemma tlv_wf t b : t < 256 -> wfb b -> wfb (tlv t b).
Proof. intros T B. unfold tlv. apply wfb_cons; [exact T|]. apply wfb_app. split; [apply derLen_wf|exact B]. Qed.
Lemma encField_wf v e : encField v = Some e -> dvWf v -> wfb e.
Proof.
  destruct v as [z|b|b|s]; cbn [encField dvWf]; intros E W.
  - assert (e = tlv 2 (intBytes z)) as -> by (injection E; auto). apply tlv_wf; [lia|apply wfb_be].
  - assert (e = tlv 1 [if b then 255 else 0]) as -> by (injection E; auto). apply tlv_wf; [lia|]. destruct b; repeat constructor; lia.
  - assert (e = tlv 4 b) as -> by (injection E; auto). apply tlv_wf; [lia|exact W].
  - destruct (forallb isPrintable s); [|destruct (utf8ok s); [|discriminate E]].
    + assert (e = tlv 19 s) as -> by (injection E; auto). apply tlv_wf; [lia|exact W].
    + assert (e = tlv 12 s) as -> by (injection E; auto). apply tlv_wf; [lia|exact W].
Qed.
Lemma encFields_wf l : forall e, encFields l = Some e -> Forall dvWf l -> wfb e.
Proof.
  induction l as [|v l IH]; intros e E W; cbn [encFields] in E.
  - assert (e = []) as -> by (injection E; auto). constructor.
  - destruct (encField v) as [a|] eqn:A; [|discriminate]. destruct (encFields l) as [b|]; [|discriminate].
    assert (e = a ++ b) as -> by (injection E; auto). inversion W; subst. apply wfb_app. split; [eapply encField_wf; eassumption|apply IH; auto].
Qed.
Lemma derMarshal_wf l e : derMarshal l = Some e -> Forall dvWf l -> wfb e.
Proof.
  unfold derMarshal. destruct (encFields l) as [b|] eqn:B; [|discriminate]. intros E W. assert (e = tlv 48 b) as -> by (injection E; auto).
  apply tlv_wf; [lia|]. eapply encFields_wf; eassumption.
Qed.
Lemma pad32_wf b : wfb b -> wfb (pad32 b).
Proof. intros W. unfold pad32. apply wfb_takeN, wfb_app. split; [exact W|]. apply wfb_repeat; lia. Qed.
Lemma join_wf l : Forall wfb l -> wfb (join CRLF l).
Proof.
  induction l as [|x l IH]; intros F; [constructor|]. inversion F; subst. cbn [join]. destruct l as [|y l]; [assumption|].
  apply wfb_app. split; [assumption|]. apply wfb_app. split; [repeat constructor; lia|auto].
Qed.
Lemma splitLoop_wf f w : forall s, wfb s -> Forall wfb (splitLoop f w s).
Proof.
  induction f as [|f IH]; intros s W; cbn [splitLoop]; [constructor|]. destruct (lenN s =? 0); [constructor|]. destruct (lenN s <=? w); [repeat constructor; exact W|].
  constructor; [apply wfb_takeN, W|apply IH, wfb_dropN, W].
Qed.
Lemma writeMail_wf a b d x : wfb a -> wfb b -> wfb d -> wfb (writeMail a b d x).
Proof.
  intros A B D. unfold writeMail. apply wfb_app. split.
  - unfold writeMailHeader. cbn [map concat]. repeat rewrite wfb_app. repeat split; try assumption; apply wfbb_spec; vm_compute; reflexivity.
  - apply wfb_app. split; [repeat constructor; lia|]. unfold splitMaxLine. destruct (_ <=? _); [apply wfb_b64enc|]. apply join_wf, splitLoop_wf, wfb_b64enc.
Qed.

(* sizes *)
Lemma joinLoop_len f w : forall s, 1 <= w -> lenN (join CRLF (splitLoop f w s)) <= 3 * lenN s.
Proof.
  induction f as [|f IH]; intros s W; cbn [splitLoop]; [cbn [join]; rewrite (lenN_nil N); lia|].
  destruct (N.eqb_spec (lenN s) 0); [cbn [join]; rewrite (lenN_nil N); lia|]. destruct (N.leb_spec (lenN s) w); [cbn [join]; lia|].
  assert (L1 : lenN (takeN w s) = w) by (rewrite lenN_takeN; lia). assert (L2 : lenN (dropN w s) = lenN s - w) by apply lenN_dropN.
  specialize (IH (dropN w s) W). rewrite L2 in IH. cbn [join]. destruct (splitLoop f w (dropN w s)) as [|y l]; [rewrite L1; lia|].
  rewrite !lenN_app, L1. change (lenN CRLF) with 2. lia.
Qed.
Lemma b64enc_le b : lenN (b64enc b) <= 4 * lenN b + 4.
Proof. rewrite lenN_b64enc. lia. Qed.
Lemma writeMail_len a b d x : lenN (writeMail a b d x) <= 1000 + lenN a + lenN b + lenN d + 12 * lenN x.
Proof.
  unfold writeMail. rewrite !lenN_app. assert (H : lenN (concat (map (fun l => l ++ CRLF) (writeMailHeader a b d))) <= 900 + lenN a + lenN b + lenN d).
  { unfold writeMailHeader. cbn [map concat]. rewrite !lenN_app. 
    repeat match goal with |- context [lenN (str ?s)] => let v := eval vm_compute in (lenN (str s)) in change (lenN (str s)) with v end. change (lenN CRLF) with 2. rewrite (lenN_nil N). lia. }
  assert (S : lenN (splitMaxLine (b64enc x) 72) <= 3 * lenN (b64enc x)).
  { unfold splitMaxLine. destruct (_ <=? _); [lia|]. apply joinLoop_len. lia. }
  pose proof (b64enc_le x). change (lenN CRLF) with 2. lia.
Qed.

(* the header of a relay message *)
Lemma relayHeader_len mi ma tok na rev : int32ok mi -> int32ok ma -> lenN tok + lenN na <= 60000 -> lenN rev = 32 ->
  lenN (mhMarshal (mkMH MessageTypeRelay mi ma (Some tok) na (Some rev))) < 65280.
Proof.
  intros A B L R. assert (IL : forall z, int32ok z -> lenN (tlv 2 (intBytes z)) <= 14).
  { intros z Z. assert (Q : lenN (intBytes z) <= 8) by (apply intBytes_len; unfold int32ok in Z; lia). pose proof (tlv_len 2 (intBytes z) ltac:(lia)). lia. }
  pose proof (IL mi A). pose proof (IL ma B). pose proof (IL MessageTypeRelay ltac:(unfold int32ok, MessageTypeRelay; lia)).
  pose proof (tlv_len 4 tok ltac:(lia)). pose proof (tlv_len 4 na ltac:(lia)). pose proof (tlv_len 4 rev ltac:(lia)).
  unfold mhMarshal, derMarshal, mhFields. cbn [mhType mhMin mhMax mhToken mhAddress mhRevoke encFields encField]. change (MessageTypeRelay =? MessageTypeForward)%Z with false. cbv iota.
  set (b := tlv 2 (intBytes MessageTypeRelay) ++ _). assert (Lb : lenN b <= 60000 + 32 + 60) by (unfold b; rewrite !lenN_app, (lenN_nil N); lia).
  pose proof (tlv_len 48 b ltac:(lia)). rewrite lenN_app. change (lenN (be 2 (lenN (tlv 48 b)))) with (lenN (be 2 (lenN (tlv 48 b)))). rewrite lenN_be. lia.
Qed.
Lemma mhMarshal_wf h : wfb (octs (mhToken h)) -> wfb (mhAddress h) -> wfb (octs (mhRevoke h)) -> wfb (mhMarshal h).
Proof.
  intros A B D. destruct (mhMarshal_some h) as (d & E & ->). apply wfb_app. split; [apply wfb_be|]. apply (derMarshal_wf _ _ E). unfold mhFields.
  repeat constructor; cbn [dvWf]; try exact I.
  - destruct (mhToken h); [exact A|repeat constructor; lia].
  - exact B.
  - destruct (_ =? _)%Z; [repeat constructor; lia|]. destruct (mhRevoke h); [exact D|repeat constructor; lia].
Qed.
Lemma encryptNym_wf (M : MixCrypto) k n : wfb n -> wfb (encryptNym M k n).
Proof.
  intros W. unfold encryptNym. apply xorb_wf; [|apply ctr_wf]. apply wfb_takeN, wfb_app. split; [constructor; [|constructor]; lia|].
  apply wfb_app. split; [apply wfb_takeN, W|apply wfb_repeat; lia].
Qed.
Lemma builtPrivate_wf (M : MixCrypto) tpl mailbox nym nonce : wfb mailbox -> wfb nym -> wfb nonce ->
  Forall dvWf (npFields (builtPrivate M tpl mailbox nym nonce)).
Proof.
  intros A B D. unfold npFields, builtPrivate. cbn [npSystem npAddress npExpire npSingle npMin npMax npNonce npRecv npEncNym npHMAC].
  repeat constructor; cbn [dvWf]; try exact I; try assumption; [apply dhpub_wf|apply encryptNym_wf, pad32_wf, B|apply hmac256_wf].
Qed.
Lemma newAddress_wf (M : MixCrypto) tpl mailbox nym now rnd apriv nonce na : newAddress M tpl mailbox nym now rnd apriv nonce = Ok na ->
  (forall m, In m (tpMixes tpl) -> wfb (maPub m) /\ wfb (maAddress m) /\ wfb (maToken m)) -> wfb mailbox -> wfb nym -> wfb nonce ->
  exists mix pe, In mix (tpMixes tpl) /\ wfb na /\
    derMarshal (naFields (mkNA (maAddress mix) (tpExpire tpl) (tpSingle tpl) (maToken mix) (maPub mix) (dhpub M apriv) pe)) = Some na.
Proof.
  intros NA MW W1 W2 W3. destruct (newAddress_inv _ _ _ _ _ _ _ _ _ NA) as (mix & pm & pe & R & Epm & Epe & Ea).
  assert (Im : In mix (tpMixes tpl)).
  { unfold adlRand in R. remember (adlExpire (tpExpire tpl) now (tpMixes tpl)) as l eqn:El.
    assert (I : In mix l) by (destruct l; [discriminate R|apply nth_error_In in R; exact R]). subst l. unfold adlExpire in I. apply filter_In in I. apply I. }
  exists mix, pe. split; [exact Im|]. split; [|exact Ea]. destruct (MW mix Im) as (A & B & D). apply (derMarshal_wf _ _ Ea). unfold naFields.
  cbn [naMix naExpire naSingle naToken naMixPub naKey naPriv].
  assert (Wpm : wfb pm) by (apply (derMarshal_wf _ _ Epm), builtPrivate_wf; assumption).
  pose proof (lionEnc_wf M _ _ _ Epe Wpm). repeat constructor; cbn [dvWf]; try exact I; try assumption. apply dhpub_wf.
Qed.
Lemma header_wf (M : MixCrypto) tpl mailbox nym nonce epriv hdr sec : wfb nonce -> wfb nym -> getHeader M (builtPrivate M tpl mailbox nym nonce) epriv = Ok (hdr, sec) -> wfb hdr.
Proof.
  intros W W2. unfold getHeader. intros H. destruct (derMarshal (rhFields _)) as [d|] eqn:E; cbn [lift rbind] in H; [|discriminate H].
  assert (hdr = d) as -> by congruence. apply (derMarshal_wf _ _ E). unfold rhFields, builtPrivate. cbn [rhSender rhNonce rhRecv rhEncNym rhHMAC npNonce npRecv npEncNym npHMAC].
  repeat constructor; cbn [dvWf]; try assumption; try apply dhpub_wf; [apply encryptNym_wf, pad32_wf, W2|apply hmac256_wf].
Qed.
Lemma newRelay_mixto (M : MixCrypto) h now na msg revoke priv nonce ad : parseAddress now na = Ok ad ->
  newRelay M h now na msg revoke priv nonce =
  Ok (mixEncrypt M (pad32 (naMixPub ad)) priv nonce (mhMarshal (mkMH MessageTypeRelay (mhMin h) (mhMax h) (mhToken h) na (Some revoke)) ++ msg), naMix ad).
Proof. intros P. unfold newRelay. rewrite P. reflexivity. Qed.
