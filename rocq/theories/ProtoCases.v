(* Decrypt on messages whose body or header was not made by Encrypt, and a concrete conversation. *)
From Verif Require Import Base Base64Model Base64Proofs CodecModel CodecProofs JsonModel JsonProofs Maps CryptoModel StoreModel KeysModel KeysProofs MsgFormatModel MsgFormatProofs HeaderModel HeaderProofs PropsKeys PropsHeader ProtoModel ProtoProofs ProtoFirst PropsProto.
Local Open Scope N_scope.

(* Decrypt after the header has been opened *)
Definition decRest (C : Crypto) (ra : decArgs) (hp : bytes) (i : ident) (h : header) (s : bytes) : M (bytes * bytes) :=
  dom (recipKE, sk, oss) <- decState C ra hp i h;
  dom mk <- decKey C i recipKE h sk oss (numKeys (dNumKeys ra));
  dom (o2, o3, ih, s) <- lift (openContent C mk s);
  dom _ <- emit (OOutput (iContent ih));
  dom sig <- lift (openRest C mk (hUID h) o2 o3 ih s);
  dom _ <- delMessageKey sk false (hMsgCount h);
  mret (hSender h, sig).
Record sealedHeader (C : Crypto) (ra : decArgs) (i : ident) (h : header) (hpriv nonce hp : bytes) : Prop := {
  sh_ids : exists pre post ike ipriv, dIds ra = pre ++ i :: post /\ opensId C i ike ipriv /\
             headerPacket C h (dhpub C ipriv) hpriv nonce = Ok hp /\
             Forall (skipsId C (boxseal C (jprint (headerToJson h)) nonce (dhpub C ipriv) hpriv) nonce (dhpub C hpriv)) pre;
  sh_len : lenN hp < 2 ^ 16;
  sh_nonce : lenN nonce = 24 /\ wfb nonce;
  sh_wf : headerWf h;
  sh_verify : headerVerify C h = Ok tt;
  sh_bytes : hdrB h }.
Lemma receive_tail C ra i h hpriv nonce hp tail v : sealedHeader C ra i h hpriv nonce hp -> wfb tail ->
  receive C ra (b64enc (rawMsg C hpriv hp tail)) v = decRest C ra (dhpub C hpriv) i h tail v.
Proof.
  intros [(pre & post & ike & ipriv & HD & HI & HP & HF) LH [LN WN] HW HV HB] WT.
  assert (WHP : wfb hp).
  { pose proof (headerPacket_inv _ _ _ _ _ _ HP) as [-> _]. rewrite !wfb_app. repeat split; [exact WN|apply wfb_be|].
    apply boxseal_wf, wfb_header, HB. }
  unfold receive. rewrite b64dec_enc.
  2:{ unfold rawMsg. rewrite !wfb_app. split; [|split; [|exact WT]]; apply wfb_outer; cbn [newOuterHeader oInner]; [|exact WHP].
      unfold preBytes, preheader_write. rewrite !wfb_app. repeat split; try apply wfb_be; [apply wfbb_spec; reflexivity|apply dhpub_wf]. }
  unfold rawMsg, preBytes. rewrite readFirst_write by (rewrite dhpub_len; reflexivity).
  rewrite lift_bind. rewrite N.eqb_refl. cbn [negb].
  unfold decrypt, decHeader. rewrite <- (app_nil_r (preheader_write _)). rewrite readPre_write by (rewrite dhpub_len; reflexivity).
  cbn [rbind]. cbn [newPreHeader pLenPub pPub]. rewrite dhpub_len. change (32 mod 2 ^ 16 =? 32) with true. cbn [negb].
  rewrite packet_write by (try reflexivity; lia). cbn [rbind newOuterHeader oInner]. rewrite HD.
  erewrite readHeader_seal; [|exact HP|lia|exact LN|reflexivity|exact HI|exact HF|exact HW|exact HV]. cbn [rbind]. rewrite lift_bind.
  reflexivity.
Qed.

(* opening the second part, whatever the HMAC that is presented and whatever the sender's UID message *)
Definition sigCheck (C : Crypto) (u : uidMsg) (content : bytes) (sigKey : option bytes) : res bytes :=
  match sigKey with
  | Some k => do sp <- pub32 (uSigKey u);
              let s := edsign C k (sha512 C content) in
              if edverify C sp (sha512 C content) s then Ok (b64enc s) else Err "msg: invalid signature"
  | None => Ok []
  end.
Lemma openRest_any C mk iv content sigKey p s uidJ mac : lenN content <= 41691 -> lenN iv = 16 -> lenN p = padLen content sigKey -> lenN mac = 64 ->
  let p1 := plain1 content sigKey in let p2 := plain2 C content sigKey p in
  let ck := takeN 32 (hkdf512 C mk 64) in
  openRest C mk uidJ (bodySetup iv) (bodyEnc1 C ck iv p1 p2)
    (newInnerHeader (match sigKey with Some _ => dataSignType | None => dataType end) false content)
    (outer_write (bodyEnc2 C ck iv p1 p2) true ++ outer_write (mkOuter hmacPacket 64 5 mac) true ++ s)
  = do u <- newJSONUid uidJ; do sig <- sigCheck C u content sigKey;
    if beq (bodyMac C mk iv p1 p2) mac then Ok sig else Err "msg: HMACs differ".
Proof.
  intros Hl Hi Hp HM p1 p2 ck. unfold openRest. rewrite derive_eq. fold ck.
  pose proof (len_plain1 content sigKey) as L1. fold p1 in L1.
  pose proof (len_plain2 C content sigKey p Hl Hp) as L2. fold p2 in L2.
  pose proof (len_enc1 C ck iv p1 p2) as LE1. pose proof (len_enc2 C ck iv p1 p2) as LE2.
  unfold bodyEnc2 at 1. rewrite packet_write by (try reflexivity; unfold bodyEnc2 in LE2; cbn [newOuterHeader oInner] in LE2; rewrite LE2, L2; lia).
  fold (bodyEnc2 C ck iv p1 p2). cbn [rbind]. rewrite LE1, LE2.
  cbn [bodySetup newOuterHeader oInner].
  match goal with |- context [readInnerHeader ?x] => replace x with p2 end.
  2:{ unfold bodyEnc2. cbn [newOuterHeader oInner]. rewrite xorb_invol; [reflexivity|]. rewrite lenN_dropN, ctr_len. lia. }
  assert (HP : lenN p < 2 ^ 16) by (rewrite Hp; unfold padLen; destruct sigKey; lia).
  rewrite (outer_hmac _ HM).
  assert (BM : hmac512 C (dropN 32 (hkdf512 C mk 64))
     (outer_write (bodySetup iv) true ++ outer_write (bodyEnc1 C ck iv p1 p2) true ++ outer_write (bodyEnc2 C ck iv p1 p2) true
      ++ outer_write (newOuterHeader hmacPacket 5 mac) false) = bodyMac C mk iv p1 p2).
  { unfold bodyMac. fold ck. unfold outer_write at 4 8. cbn [newOuterHeader oType oPLen oCount]. rewrite HM. change (64 mod 2 ^ 16) with 64. reflexivity. }
  destruct sigKey as [k|].
  - unfold p2 at 1, plain2. rewrite readInner_write by (try reflexivity; rewrite edsign_len; reflexivity).
    cbn [rbind newInnerHeader iType iContent].
    change (N.land dataSignType signType =? 0) with false. cbn [negb]. change (N.land signatureType signatureType =? 0) with false. cbv iota.
    rewrite edsign_len. change (64 =? 64) with true. cbn [negb rbind]. destruct (newJSONUid uidJ) as [u|e|]; cbn [rbind]; try reflexivity.
    unfold sigCheck. destruct (pub32 (uSigKey u)) as [sp|e|]; cbn [rbind]; try reflexivity. cbv zeta.
    destruct (edverify C sp (sha512 C content) (edsign C k (sha512 C content))); cbn [rbind]; try reflexivity.
    rewrite packet_write by (try reflexivity; rewrite HM; reflexivity). cbn [rbind]. fold (bodySetup iv). rewrite BM. reflexivity.
  - unfold p2 at 1, plain2. rewrite <- (app_nil_r (inner_write _)). rewrite readInner_write by (try reflexivity; assumption).
    cbn [rbind newInnerHeader iType iContent].
    change (N.land dataType signType =? 0) with true. cbn [negb]. change (N.land paddingType paddingType =? 0) with false. cbn [rbind].
    destruct (newJSONUid uidJ) as [u|e|]; cbn [rbind]; try reflexivity. unfold sigCheck. cbn [rbind].
    rewrite packet_write by (try reflexivity; rewrite HM; reflexivity). cbn [rbind]. fold (bodySetup iv). rewrite BM. reflexivity.
Qed.

(* A body with an arbitrary 64-byte value in place of the HMAC. *)
Definition forgedBody (C : Crypto) (mk iv content : bytes) (sigKey : option bytes) (p mac : bytes) : bytes :=
  bodyHead C mk iv (plain1 content sigKey) (plain2 C content sigKey p) ++ outer_write (mkOuter hmacPacket 64 5 mac) true.
Lemma decRest_forged C ra hp i h mk iv content sigKey p mac v ke sk oss v1 v2 :
  lenN content <= 41691 -> lenN iv = 16 -> lenN p = padLen content sigKey -> lenN mac = 64 ->
  decState C ra hp i h v = (Ok (ke, sk, oss), v1) ->
  decKey C i ke h sk oss (numKeys (dNumKeys ra)) v1 = (Ok mk, v2) ->
  decRest C ra hp i h (forgedBody C mk iv content sigKey p mac) v =
  match (do u <- newJSONUid (hUID h); do sig <- sigCheck C u content sigKey;
         if beq (bodyMac C mk iv (plain1 content sigKey) (plain2 C content sigKey p)) mac then Ok sig else Err "msg: HMACs differ") with
  | Ok sig => (Ok (hSender h, sig), steps v2 [OOutput content; ODelMsgKey sk false (hMsgCount h)])
  | Err e => (Err e, steps v2 [OOutput content])
  | Panic => (Panic, steps v2 [OOutput content])
  end.
Proof.
  intros LC LI Hp HM DS DK. unfold decRest. erewrite bind_ok by exact DS. cbv beta iota. erewrite bind_ok by exact DK. cbv beta iota.
  unfold forgedBody.
  rewrite (openContent_seal C mk iv content sigKey p _ LC LI Hp). rewrite lift_bind. cbv beta iota.
  erewrite bind_ok by (apply emit_eq). cbn [newInnerHeader iContent].
  pose proof (openRest_any C mk iv content sigKey p [] (hUID h) mac LC LI Hp HM) as OR.
  cbv zeta in OR. rewrite app_nil_r in OR. first [rewrite OR | unfold newInnerHeader in OR |- *; cbv iota in OR |- *; rewrite OR].
  assert (GK : getMessageKeyR sk false (hMsgCount h) (wStore v2) = Ok mk).
  { unfold decKey in DK. apply mbind_ok in DK as (n & x & D1 & DK). apply mbind_ok in DK as (n2 & x2 & D2 & DK).
    unfold getMessageKey in DK. injection DK as DK <-. exact DK. }
  match goal with |- context [lift ?m] => destruct m as [sig|e|] end; [|reflexivity..].
  rewrite lift_bind. erewrite bind_ok.
  2:{ eapply delMessageKey_does. cbn [step_op wStore apply_op]. exact GK. }
  reflexivity.
Qed.

(* ---- a concrete conversation: alice (signature key 1, key 2) writes to bob (key 5, published key 6) ---- *)
Definition pxUid (sk : keyEntry) (e : N) : uidMsg :=
  mkUid (str "1.0") 0 1479254400 0 [] [] (str "alice@mute.berlin") sk [initDHKey toy (hxKey e)]
    None (repeat 65 204) [str "mute.berlin"] (str "strict") [DefaultCiphersuite] None
    [] [] (repeat 66 88) [].
Definition pxNym : bytes := str "nymaddress".
Definition pxArgs (u : uidMsg) (e : N) (sig : option bytes) (content : bytes) : encArgs :=
  mkEnc (mkIdent u (Some (hxKey e)) sig) hxTo pxNym (repeat 67 204) sig content 1 0 0.
Definition pxRnd : encRnd := mkRnd (hxKey 9) (hxKey 7) false (hxKey 10) (repeat 1 24) (repeat 2 16) (hxKey 11).
Definition pxAlice : store := mkStore [] [(str "bob@mute.berlin", (initDHKey toy (hxKey 6), pxNym))] [] [] [].
Definition pxBob : store := mkStore [(keHash (initDHKey toy (hxKey 6)), (initDHKey toy (hxKey 6), hxKey 6))] [] [] [] [].
Definition pxBobId : ident := mkIdent hxTo (Some (hxKey 5)) None.
Definition pxDec : decArgs := mkDec [pxBobId] 1 (hxKey 8) 0.
Definition pxState : state := ssFirst toy (hxKey 7) (hxKey 6) pxNym.

(* the UID messages used: right length, nothing that needs escaping *)
Definition pxUidOk (u : uidMsg) (e : N) : Prop :=
  uIdentity u = str "alice@mute.berlin" /\ uPubKeys u = [initDHKey toy (hxKey e)] /\ uMsgCount u = 0 /\ uNotAfter u = 1479254400 /\ uNotBefore u = 0 /\
  wfb (uidJSON u) /\ lenN (uidJSON u) + 98 = escs (uidJSON u) /\
  exists l, headerPadLen (uIdentity u) pxNym (uidJSON u) None None 0 0 0 = Ok l /\ (32 < l)%Z.
Lemma px_fiveKeys e : e = 2 \/ e = 22 -> fiveKeys toy (dhpub toy (hxKey 9)) (hxKey e) (hxKey 7) (hxKey 5) (hxKey 6).
Proof.
  intros H. unfold fiveKeys. destruct H; subst e;
    (repeat constructor; cbn [In]; intros Q; repeat (destruct Q as [Q|Q]; [revert Q; vm_compute; discriminate|]); exact Q).
Qed.
Lemma px_first u e sig c : pxUidOk u e -> e = 2 \/ e = 22 -> firstEnc toy (pxArgs u e sig c) pxRnd pxAlice (hxKey e) (hxKey 5) (hxKey 6) pxNym.
Proof.
  intros (U1 & U2 & _) He. constructor; cbn [pxArgs eFrom eTo eStatus eNumKeys idUid idEncPriv pxRnd rSessPriv rHeaderPriv].
  - exists []. exact U2.
  - reflexivity.
  - exists []. reflexivity.
  - right. reflexivity.
  - reflexivity.
  - reflexivity.
  - apply px_fiveKeys, He.
  - vm_compute. discriminate.
Qed.
Lemma px_hdrArgs u e : pxUidOk u e -> hdrArgs toy u hxTo (keHash (initDHKey toy (hxKey 6))) (initDHKey toy (hxKey 7)) None None 0 0 (repeat 67 204) (hxKey 10) 0.
Proof.
  intros (U1 & U2 & _). constructor.
  - exists (initDHKey toy (hxKey 5)), []; split; [reflexivity|exists (hxKey 5); reflexivity].
  - exists (initDHKey toy (hxKey e)), []; split; [exact U2|exists (hxKey e); reflexivity].
  - exists (initDHKey toy (hxKey 6)); split; [|reflexivity]. exists (hxKey 6); reflexivity.
  - exists (hxKey 7); reflexivity.
  - exact I.
  - exact I.
  - lia.
  - lia.
  - apply unescaped_dec; reflexivity.
  - apply wfbb_spec; reflexivity.
  - lia.
Qed.
Lemma px_header u e sig c : pxUidOk u e -> exists h hp, hdrOf toy (pxArgs u e sig c) pxRnd pxState = Ok h /\
  encHeader toy (pxArgs u e sig c) pxRnd pxState = Ok hp /\ headerPacket toy h (dhpub toy (hxKey 5)) (hxKey 9) (repeat 1 24) = Ok hp /\ lenN hp = 7194.
Proof.
  intros U. pose proof (px_hdrArgs u e U) as A. destruct U as (U1 & U2 & _ & _ & _ & U3 & U4 & l & U5 & U6).
  assert (B : exists h, newHeader toy u hxTo (keHash (initDHKey toy (hxKey 6))) (initDHKey toy (hxKey 7)) None None pxNym 0 0 (repeat 67 204) (hxKey 10) 0 = Ok h).
  { unfold newHeader. replace (lenN (repeat 67 204) =? EntryBase64Len) with true by reflexivity. cbn [negb].
    replace (pubKey hxTo) with (Ok (initDHKey toy (hxKey 5))) by reflexivity. cbn [rbind].
    rewrite (pubKey_cons _ _ _ U2). cbn [rbind]. rewrite U5. cbn [rbind].
    destruct (paddingGenerate_succeeds (fun k n => ctr toy k (zeros 16) n) (l / 2 + l mod 2)%Z (hxKey 10)) as [p Hp].
    - intros. apply ctr_len.
    - lia.
    - change (lenN (hxKey 10)) with 32. lia.
    - unfold padGen. rewrite Hp. cbn [rbind]. eexists; reflexivity. }
  destruct B as [h B].
  assert (L : lenN (jprint (headerToJson h)) = 7152).
  { pose proof (C03_header_length _ _ _ _ _ _ _ _ _ _ _ _ _ _ A B) as L. rewrite U1 in L.
    specialize (L ltac:(apply unescaped_dec; reflexivity) ltac:(apply unescaped_dec; reflexivity)). lia. }
  assert (P : exists hp, headerPacket toy h (dhpub toy (hxKey 5)) (hxKey 9) (repeat 1 24) = Ok hp).
  { eexists. unfold headerPacket. rewrite boxseal_len, L. reflexivity. }
  destruct P as [hp P]. exists h, hp. split; [exact B|]. split; [|split; [exact P|]].
  - unfold encHeader. cbn [pxArgs eFrom eTo eNym eKeychain eStatus pxRnd rHeaderPriv rNonce rHdrPad idUid].
    change (newHeader toy u hxTo (keHash (stRecipTemp pxState)) (stSenderPub pxState) (stNextSender pxState) (stNextSeen pxState) pxNym (stSessCount pxState) (stMsgCount pxState) (repeat 67 204) (hxKey 10) 0)
      with (newHeader toy u hxTo (keHash (initDHKey toy (hxKey 6))) (initDHKey toy (hxKey 7)) None None pxNym 0 0 (repeat 67 204) (hxKey 10) 0).
    rewrite B. cbn [rbind]. unfold publicKey. rewrite (pubKey_cons hxTo (initDHKey toy (hxKey 5)) []) by reflexivity. cbn [rbind initDHKey kePub].
    rewrite b64dec_enc by apply dhpub_wf. rewrite dhpub_len. exact P.
  - eapply C03_packet_fixed_size; [exact A|exact B| |exact P]. reflexivity.
Qed.
Lemma px_wf u e sig c : pxUidOk u e -> wfb c -> (forall k, sig = Some k -> pub32 (uSigKey u) = Ok (edpub toy k)) ->
  encWf toy (pxArgs u e sig c) pxRnd pxState.
Proof.
  intros (U1 & U2 & U7 & U8 & U9 & U3 & _) Wc S.
  constructor; cbn [pxArgs eFrom eTo eNym eKeychain eContent eStatus eSigKey idUid pxRnd rNonce rIv rPad rHdrPad].
  - unfold uidWf. rewrite U7, U8, U9. lia.
  - exact U3.
  - rewrite U1. apply wfbb_spec; reflexivity.
  - apply wfbb_spec; reflexivity.
  - apply wfbb_spec; reflexivity.
  - exact Wc.
  - lia.
  - exists (initDHKey toy (hxKey e)), []. split; [exact U2|]. eexists; reflexivity.
  - exists (initDHKey toy (hxKey 5)), []. split; [reflexivity|]. eexists; reflexivity.
  - exact S.
  - split; [reflexivity|apply wfbb_spec; reflexivity].
  - split; [reflexivity|apply wfbb_spec; reflexivity].
  - apply wfbb_spec; reflexivity.
  - apply wfbb_spec; reflexivity.
  - eexists; reflexivity.
  - eexists; reflexivity.
  - exact I.
  - exact I.
  - cbn. lia.
  - cbn. lia.
Qed.
Definition pxUidA : uidMsg := pxUid (hxSig 1) 2.       (* alice *)
Definition pxUidE : uidMsg := pxUid (hxSig 21) 22.     (* somebody else's keys under alice's name *)
Definition pxUidP : uidMsg := pxUid (mkKE DefaultCiphersuite fED25519 [] []) 2.   (* alice, with an empty signature key *)
Lemma px_uidA : pxUidOk pxUidA 2.
Proof.
  unfold pxUidOk. repeat (split; [reflexivity|]). split; [apply wfbb_spec; vm_compute; reflexivity|]. split; [vm_compute; reflexivity|].
  eexists. split; [vm_compute; reflexivity|lia].
Qed.
Lemma px_uidE : pxUidOk pxUidE 22.
Proof.
  unfold pxUidOk. repeat (split; [reflexivity|]). split; [apply wfbb_spec; vm_compute; reflexivity|]. split; [vm_compute; reflexivity|].
  eexists. split; [vm_compute; reflexivity|lia].
Qed.
Lemma px_uidP : pxUidOk pxUidP 2.
Proof.
  unfold pxUidOk. repeat (split; [reflexivity|]). split; [apply wfbb_spec; vm_compute; reflexivity|]. split; [vm_compute; reflexivity|].
  eexists. split; [vm_compute; reflexivity|lia].
Qed.
Definition pxFix : bytes := identityFix toy (str "alice@mute.berlin") (str "bob@mute.berlin").
Definition pxRoot (e : N) : bytes := rootOf toy (hxKey e) (hxKey 7) (hxKey 5) (hxKey 6) None.
Definition pxSkA (e : N) : bytes := sessKeyOf toy (idHash toy (hxKey e)) (idHash toy (hxKey 5)) (dhpub toy (hxKey 7)) (dhpub toy (hxKey 6)).
Definition pxSkB (e : N) : bytes := sessKeyOf toy (idHash toy (hxKey 5)) (idHash toy (hxKey e)) (dhpub toy (hxKey 6)) (dhpub toy (hxKey 7)).
Definition pxMk (e : N) : bytes := msgKeyVal toy (chainAt toy (pxRoot e) 0) (dhpub toy (hxKey 6)) pxFix.
Lemma px_key u e sig c w : pxUidOk u e -> mget (pxSkA e) (sessions (wStore w)) = Some (sessAfter toy (hxKey 7) (hxKey 6) pxFix (pxRoot e) 1) ->
  encKey toy (pxArgs u e sig c) pxState w = (Ok (pxSkA e, pxMk e), w).
Proof.
  intros (U1 & U2 & _) G.
  rewrite (encKey_at toy (pxArgs u e sig c) pxState w (hxKey e) (hxKey 5) (hxKey 7) (hxKey 6) (sessAfter toy (hxKey 7) (hxKey 6) pxFix (pxRoot e) 1) (pxRoot e) 1 [] []).
  - cbn [pxArgs eFrom eTo idUid]. rewrite U1. reflexivity.
  - exact U2.
  - reflexivity.
  - reflexivity.
  - reflexivity.
  - exact G.
  - cbn [pxArgs eFrom eTo idUid]. rewrite U1. apply (sessAfter_ok toy (hxKey 7) (hxKey 6) pxFix (pxRoot e) 1).
  - cbn. lia.
  - cbn [pxState ssFirst stMsgCount sessAfter sSend]. apply keysFor_ne. lia.
Qed.
Definition pxOps (u : uidMsg) (e : N) (sig : option bytes) (c : bytes) : list op :=
  encFirstOps toy (pxArgs u e sig c) pxRnd (hxKey e) (hxKey 5) (hxKey 6) pxNym.
Lemma px_state u e sig c : pxUidOk u e -> e = 2 \/ e = 22 ->
  encState toy (pxArgs u e sig c) pxRnd (mkWorld pxAlice [] []) = (Ok (pxNym, pxState), steps (mkWorld pxAlice [] []) (pxOps u e sig c)).
Proof. intros U He. apply (encState_first toy (pxArgs u e sig c) pxRnd (mkWorld pxAlice [] []) (hxKey e) (hxKey 5) (hxKey 6) pxNym), px_first; assumption. Qed.
Lemma px_sess u e sig c : pxUidOk u e ->
  mget (pxSkA e) (sessions (wStore (steps (mkWorld pxAlice [] []) (pxOps u e sig c)))) = Some (sessAfter toy (hxKey 7) (hxKey 6) pxFix (pxRoot e) 1).
Proof.
  intros (U1 & _). unfold pxOps, encFirstOps. cbn [steps fold_left step_op wStore]. cbn [apply_op sessions].
  cbn [pxArgs eFrom eTo eNumKeys idUid pxRnd rSessPriv]. rewrite U1.
  change (numKeys 1) with 1. apply newSess_get. reflexivity.
Qed.
Lemma px_runs u e sig c : pxUidOk u e -> e = 2 \/ e = 22 -> lenN c <= 41691 ->
  exists w', run (encrypt toy (pxArgs u e sig c) pxRnd) pxAlice = (Ok pxNym, w') /\ lenN (wOut w') = 65536.
Proof.
  intros U He L. destruct (px_header u e sig c U) as (h & hp & _ & HP & _ & LH).
  apply (C01_never_fails_on_size toy (pxArgs u e sig c) pxRnd (mkWorld pxAlice [] []) pxNym pxState _ hp (pxSkA e) (pxMk e) _
           (px_state u e sig c U He) HP LH (px_key u e sig c _ U (px_sess u e sig c U)) L); reflexivity.
Qed.
Lemma px_sealed u e sig c h hp : pxUidOk u e -> wfb c -> hdrOf toy (pxArgs u e sig c) pxRnd pxState = Ok h ->
  headerPacket toy h (dhpub toy (hxKey 5)) (hxKey 9) (repeat 1 24) = Ok hp -> lenN hp = 7194 ->
  encWf toy (pxArgs u e None c) pxRnd pxState -> sealedHeader toy pxDec pxBobId h (hxKey 9) (repeat 1 24) hp.
Proof.
  intros U Wc HH P L W. pose proof (hdrOf_inv toy (pxArgs u e None c) pxRnd pxState h HH W) as (_ & _ & _ & _ & _ & _ & _ & _ & _ & HW & HV & HB).
  constructor; try assumption.
  - exists [], [], (initDHKey toy (hxKey 5)), (hxKey 5). split; [reflexivity|]. split.
    + split; [reflexivity|]. split; [apply initDHKey_pub32|reflexivity].
    + split; [exact P|constructor].
  - lia.
  - split; [reflexivity|apply wfbb_spec; reflexivity].
Qed.
(* bob's side: the header makes him derive the session, and the key is the one alice used *)
Lemma px_bob u e sig c h v : pxUidOk u e -> e = 2 \/ e = 22 -> hdrOf toy (pxArgs u e sig c) pxRnd pxState = Ok h -> encWf toy (pxArgs u e None c) pxRnd pxState ->
  privKEs (wStore v) = privKEs pxBob -> sessions (wStore v) = [] -> states (wStore v) = [] ->
  exists v1, v1 = steps v (decFirstOps toy pxDec pxBobId h (hxKey e) (hxKey 7) (hxKey 5) (hxKey 6)) /\
  decState toy pxDec (dhpub toy (hxKey 9)) pxBobId h v =
    (Ok (initDHKey toy (hxKey 5), pxSkB e, Some (ssReply toy (hxKey 7) (hxKey 6) (hxKey 8) pxNym)), v1) /\
  decKey toy pxBobId (initDHKey toy (hxKey 5)) h (pxSkB e) (Some (ssReply toy (hxKey 7) (hxKey 6) (hxKey 8) pxNym)) (numKeys (dNumKeys pxDec)) v1 = (Ok (pxMk e), v1).
Proof.
  intros U He HH W VP VS VT. pose proof (hdrOf_inv toy (pxArgs u e None c) pxRnd pxState h HH W) as (_ & U2 & U3 & U4 & U5 & U6 & _ & U8 & U9 & _).
  destruct U as (U1 & UP & _).
  cbn [pxArgs eFrom idUid] in U8. rewrite (pubKey_cons _ _ _ UP) in U8. apply Ok_inj in U8.
  eexists. split; [reflexivity|]. split.
  - replace pxNym with (hNym h) by exact U9. apply decState_first. constructor.
    + exists []. reflexivity.
    + reflexivity.
    + exact U8.
    + exact U5.
    + exact U4.
    + exact U6.
    + exact U2.
    + rewrite VT. reflexivity.
    + rewrite VP. cbn [pxBob privKEs mget]. rewrite beq_refl. reflexivity.
    + rewrite VS. reflexivity.
    + apply px_fiveKeys, He.
    + vm_compute. discriminate.
  - rewrite (decKey_at toy pxBobId _ h (pxSkB e) _ _ _ (pxRoot e) (dhpub toy (hxKey 6)) (dhpub toy (hxKey 7)) pxFix (b64enc (sha512 toy (pxRoot e))) 1
               (sessAfter toy (hxKey 6) (hxKey 7) pxFix (pxRoot e) 1)).
    + rewrite U2. reflexivity.
    + unfold decFirstOps. cbn [steps fold_left step_op wStore]. cbn [apply_op addKey sessions].
      rewrite U3. cbn [pxArgs eFrom idUid]. rewrite U1. apply newSess_get. rewrite VS. reflexivity.
    + apply (sessAfter_ok toy (hxKey 6) (hxKey 7) pxFix (pxRoot e) 1).
    + rewrite U2. cbn. lia.
    + rewrite U2. cbn [pxState ssFirst stMsgCount sessAfter sRecv]. apply keysFor_ne. lia.
Qed.
