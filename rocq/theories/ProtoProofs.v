(* Lemmas about Encrypt and Decrypt (ProtoModel). *)
From Verif Require Import Base Base64Model Base64Proofs CodecModel CodecProofs JsonModel JsonProofs Maps CryptoModel StoreModel KeysModel KeysProofs MsgFormatModel MsgFormatProofs HeaderModel HeaderProofs ProtoModel.
Local Open Scope N_scope.

Lemma Ok_inj {A} (a b : A) : Ok a = Ok b -> a = b.
Proof. intros E; injection E; auto. Qed.
Lemma rbind_ok {A B} (m : res A) (f : A -> res B) b : rbind m f = Ok b -> exists a, m = Ok a /\ f a = Ok b.
Proof. destruct m; cbn [rbind]; intros H; try discriminate. eauto. Qed.
Lemma mbind_ok {A B} (m : M A) (f : A -> M B) w b w' : mbind m f w = (Ok b, w') ->
  exists a w1, m w = (Ok a, w1) /\ f a w1 = (Ok b, w').
Proof. unfold mbind. destruct (m w) as [[a| |] w1]; intros H; try discriminate. eauto. Qed.

(* ---- every computation changes the world by performing operations ---- *)
Definition steps (w : world) (l : list op) : world := fold_left step_op l w.
Definition traced {A} (P : op -> Prop) (m : M A) : Prop := forall w, exists l, snd (m w) = steps w l /\ Forall P l.
Lemma steps_app w a b : steps w (a ++ b) = steps (steps w a) b.
Proof. apply fold_left_app. Qed.
Lemma steps_store l : forall w, wStore (steps w l) = fold_left (fun s o => apply_op o s) l (wStore w).
Proof. induction l as [|o l IH]; intros w; [reflexivity|]. cbn [steps fold_left]. fold (steps (step_op w o) l). rewrite IH. reflexivity. Qed.
Lemma steps_trace l : forall w, wTrace (steps w l) = wTrace w ++ l.
Proof.
  induction l as [|o l IH]; intros w; [cbn; now rewrite app_nil_r|]. cbn [steps fold_left]. fold (steps (step_op w o) l).
  rewrite IH. unfold step_op. cbn [wTrace]. now rewrite <- app_assoc.
Qed.
Lemma steps_out l : forall w, wOut (steps w l) = wOut w ++ flat_map out_of l.
Proof.
  induction l as [|o l IH]; intros w; [cbn; now rewrite app_nil_r|]. cbn [steps fold_left flat_map]. fold (steps (step_op w o) l).
  rewrite IH. unfold step_op. cbn [wOut]. now rewrite <- app_assoc.
Qed.
Lemma traced_lift {A} P (r : res A) : traced P (lift r).
Proof. intros w. exists []. split; [reflexivity|constructor]. Qed.
Lemma traced_pure {A} P (m : M A) : (forall w, snd (m w) = w) -> traced P m.
Proof. intros H w. exists []. rewrite H. split; [reflexivity|constructor]. Qed.
Lemma traced_emit (P : op -> Prop) o : P o -> traced P (emit o).
Proof. intros H w. exists [o]. split; [reflexivity|constructor; [exact H|constructor]]. Qed.
Lemma traced_bind {A B} P (m : M A) (f : A -> M B) : traced P m -> (forall a, traced P (f a)) -> traced P (mbind m f).
Proof.
  intros Hm Hf w. destruct (Hm w) as (l & E & F). unfold mbind. destruct (m w) as [[a| |] w1]; cbn [snd] in *; subst w1.
  - destruct (Hf a (steps w l)) as (l2 & E2 & F2). exists (l ++ l2). rewrite steps_app, E2. split; [reflexivity|].
    apply Forall_app; auto.
  - exists l; auto.
  - exists l; auto.
Qed.
Lemma traced_if {A} P (b : bool) (m n : M A) : traced P m -> traced P n -> traced P (if b then m else n).
Proof. destruct b; auto. Qed.
Lemma traced_weaken {A} (P Q : op -> Prop) (m : M A) : (forall o, P o -> Q o) -> traced P m -> traced Q m.
Proof. intros H T w. destruct (T w) as (l & E & F). exists l. split; [exact E|]. eapply Forall_impl; eauto. Qed.

Ltac trc :=
  repeat first
    [ apply traced_bind; [|intros]
    | apply traced_lift
    | apply traced_emit
    | apply traced_if
    | match goal with |- traced _ (match ?x with _ => _ end) => destruct x end
    | apply traced_pure; intros; reflexivity ].

(* operations of encState/encKey and of decState/decKey *)
Definition keyOp (o : op) : Prop := match o with OSetState _ _ | OStoreSession _ _ _ _ _ | OAddSessionKey _ _ _ _ => True | _ => False end.
Definition decOp (o : op) : Prop := keyOp o \/ match o with ODelPriv _ => True | _ => False end.
Lemma traced_storeSession (P : op -> Prop) sk rh ck a b : P (OStoreSession sk rh ck a b) -> traced P (storeSession sk rh ck a b).
Proof. intros H. unfold storeSession. apply traced_if; [apply traced_pure; reflexivity|apply traced_emit, H]. Qed.
Lemma traced_generate C (P : op -> Prop) a b c d e f g h n : (forall x y z u v, P (OStoreSession x y z u v)) -> traced P (generateMessageKeys C a b c d e f g h n).
Proof.
  intros H. unfold generateMessageKeys. destruct (keyLoop C (N.to_nat n) e h g (identityFix C a b)) as [[s r] ck].
  destruct f; apply traced_storeSession, H.
Qed.
Lemma traced_rkaS C (P : op -> Prop) a b c d e f g h i j n : (forall x y z u v, P (OStoreSession x y z u v)) -> traced P (rootKeyAgreementSender C a b c d e f g h i j n).
Proof. intros H. unfold rootKeyAgreementSender. trc. apply traced_generate, H. Qed.
Lemma traced_rkaR C (P : op -> Prop) a b c d e f g h i j n : (forall x y z u v, P (OStoreSession x y z u v)) -> traced P (rootKeyAgreementRecipient C a b c d e f g h i j n).
Proof. intros H. unfold rootKeyAgreementRecipient. trc. apply traced_generate, H. Qed.
Lemma traced_addSessionKey (C : Crypto) (P : op -> Prop) ke p c : (forall x y z u, P (OAddSessionKey x y z u)) -> traced P (addSessionKey ke p c).
Proof. intros H. apply traced_emit, H. Qed.
Lemma traced_setNext C (P : op -> Prop) ss k p c : (forall x y z u, P (OAddSessionKey x y z u)) -> (forall x y, P (OSetState x y)) ->
  traced P (setNextSenderSessionPub C ss k p c).
Proof.
  intros H1 H2. unfold setNextSenderSessionPub. apply traced_bind; [apply (traced_addSessionKey C), H1|intros].
  apply traced_bind; [apply traced_emit, H2|intros]. apply traced_pure; reflexivity.
Qed.
Lemma traced_getSessionKey P h : traced P (getSessionKey h).
Proof.
  unfold getSessionKey. apply traced_bind; [apply traced_pure; reflexivity|]. intros [k|]; [|apply traced_pure; reflexivity].
  apply traced_bind; [apply traced_lift|intros ke].
  destruct (beq (skPriv k) []); [apply traced_pure; reflexivity|].
  destruct (b64dec (skPriv k)); [|apply traced_pure; reflexivity].
  destruct (beq (keFunc ke) fECDHE || beq (keFunc ke) fED25519); [|apply traced_pure; reflexivity].
  destruct (lenN b =? (if beq (keFunc ke) fECDHE then 32 else 64)); apply traced_pure; reflexivity.
Qed.
Ltac trk1 := lazymatch goal with
  | |- traced _ (generateMessageKeys _ _ _ _ _ _ _ _ _ _) => apply traced_generate; intros; cbn; auto
  | |- traced _ (rootKeyAgreementSender _ _ _ _ _ _ _ _ _ _ _ _) => apply traced_rkaS; intros; cbn; auto
  | |- traced _ (rootKeyAgreementRecipient _ _ _ _ _ _ _ _ _ _ _ _) => apply traced_rkaR; intros; cbn; auto
  | |- traced _ (addSessionKey _ _ _) => apply (traced_addSessionKey toy); intros; cbn; auto
  | |- traced _ (setNextSenderSessionPub _ _ _ _ _) => apply traced_setNext; intros; cbn; auto
  | |- traced _ (getSessionKey _) => apply traced_getSessionKey
  | |- traced _ (emit _) => apply traced_emit; cbn; auto
  | |- traced _ (mbind _ _) => apply traced_bind; [|intros]
  | |- traced _ (lift _) => apply traced_lift
  | |- traced _ (if ?b then _ else _) => destruct b
  | |- traced _ (match ?x with _ => _ end) => destruct x
  | |- traced _ _ => apply traced_pure; intros; reflexivity
  end.
Ltac trk := repeat trk1.
Lemma traced_encState C a r : traced keyOp (encState C a r).
Proof. unfold encState. trk. Qed.
Lemma traced_encKey C a ss : traced keyOp (encKey C a ss).
Proof. unfold encKey. trk. Qed.
Lemma traced_decState C a hp i h : traced decOp (decState C a hp i h).
Proof.
  unfold decState, decKnown, decUnknown. unfold decOp.
  trk.
Qed.
Lemma traced_decKey C i ke h sk oss nk : traced keyOp (decKey C i ke h sk oss nk).
Proof. unfold decKey. trk. Qed.

(* ---- the body ---- *)
Lemma derive_eq C mk : deriveSymmetricKeys C mk = (takeN 32 (hkdf512 C mk 64), dropN 32 (hkdf512 C mk 64)).
Proof. reflexivity. Qed.
Lemma MaxContentLength_eq : MaxContentLength = 41691.
Proof. reflexivity. Qed.
(* the two plaintexts of a sealed body *)
Definition plain1 (content : bytes) (sigKey : option bytes) : bytes :=
  inner_write (newInnerHeader (match sigKey with Some _ => dataSignType | None => dataType end) false content).
Definition plain2 (C : Crypto) (content : bytes) (sigKey : option bytes) (p : bytes) : bytes :=
  match sigKey with
  | Some k => inner_write (newInnerHeader signatureType true (edsign C k (sha512 C content))) ++ inner_write (newInnerHeader paddingType false p)
  | None => inner_write (newInnerHeader paddingType false p)
  end.
Definition padLen (content : bytes) (sigKey : option bytes) : N :=
  match sigKey with Some _ => 41691 - lenN content | None => 41760 - lenN content end.
Definition bodySetup (iv : bytes) : outer := newOuterHeader cryptoSetup 2 iv.
Definition bodyEnc1 (C : Crypto) (ck iv p1 p2 : bytes) : outer :=
  newOuterHeader encryptedPacket 3 (xorb p1 (takeN (lenN p1) (ctr C ck iv (lenN p1 + lenN p2)))).
Definition bodyEnc2 (C : Crypto) (ck iv p1 p2 : bytes) : outer :=
  newOuterHeader encryptedPacket 4 (xorb p2 (dropN (lenN p1) (ctr C ck iv (lenN p1 + lenN p2)))).
Definition bodyMac (C : Crypto) (mk iv p1 p2 : bytes) : bytes :=
  let ck := takeN 32 (hkdf512 C mk 64) in
  hmac512 C (dropN 32 (hkdf512 C mk 64))
    (outer_write (bodySetup iv) true ++ outer_write (bodyEnc1 C ck iv p1 p2) true ++ outer_write (bodyEnc2 C ck iv p1 p2) true
     ++ outer_write (mkOuter hmacPacket 64 5 []) false).
Definition bodyHead (C : Crypto) (mk iv p1 p2 : bytes) : bytes :=
  let ck := takeN 32 (hkdf512 C mk 64) in
  outer_write (bodySetup iv) true ++ outer_write (bodyEnc1 C ck iv p1 p2) true ++ outer_write (bodyEnc2 C ck iv p1 p2) true.
Lemma sealBody_eq C mk iv content sigKey pad body : lenN content <= 41691 ->
  sealBody C mk iv content sigKey pad = Ok body ->
  exists p, lenN p = padLen content sigKey /\
    let p1 := plain1 content sigKey in let p2 := plain2 C content sigKey p in
    body = bodyHead C mk iv p1 p2 ++ outer_write (mkOuter hmacPacket 64 5 (bodyMac C mk iv p1 p2)) true.
Proof.
  intros Hl. unfold sealBody. rewrite derive_eq. intros H. apply rbind_ok in H as (p2 & H2 & H). apply Ok_inj in H. subst body.
  destruct sigKey as [k|].
  - apply rbind_ok in H2 as (p & Hp & E). apply Ok_inj in E. subst p2. exists p.
    split; [|cbv zeta; unfold bodyHead; rewrite <- !app_assoc; reflexivity].
    apply padGen_len in Hp. rewrite MaxContentLength_eq in Hp. unfold padLen. lia.
  - apply rbind_ok in H2 as (p & Hp & E). apply Ok_inj in E. subst p2. exists p.
    split; [|cbv zeta; unfold bodyHead; rewrite <- !app_assoc; reflexivity].
    apply padGen_len in Hp. rewrite MaxContentLength_eq in Hp. unfold padLen. unfold signatureSize, encryptedPacketSize, innerHeaderSize in Hp. lia.
Qed.
Lemma sealBody_ok C mk iv content sigKey pad : lenN content <= 41691 -> lenN pad = 32 ->
  (padLen content sigKey <= 32 -> True) -> exists body, sealBody C mk iv content sigKey pad = Ok body.
Proof.
  intros Hl Hp _. unfold sealBody. rewrite derive_eq.
  assert (G : forall l, (0 <= l)%Z -> exists p, padGen C l pad = Ok p).
  { intros l Hz. apply paddingGenerate_succeeds; [intros; apply ctr_len|exact Hz|]. lia. }
  destruct sigKey as [k|].
  - destruct (G (Z.of_N MaxContentLength - Z.of_N (lenN content))%Z) as [p ->]; [rewrite MaxContentLength_eq; lia|]. cbn [rbind]. eexists. reflexivity.
  - match goal with |- context [padGen C ?l pad] => destruct (G l) as [p ->] end;
      [rewrite MaxContentLength_eq; unfold signatureSize, encryptedPacketSize, innerHeaderSize; lia|]. cbn [rbind]. eexists. reflexivity.
Qed.
Lemma len_plain1 content sigKey : lenN (plain1 content sigKey) = 5 + lenN content.
Proof. unfold plain1. now rewrite lenN_inner_write. Qed.
Lemma len_plain2 C content sigKey p : lenN content <= 41691 -> lenN p = padLen content sigKey ->
  lenN (plain2 C content sigKey p) = 41765 - lenN content.
Proof.
  intros Hl Hp. unfold plain2, padLen in *. destruct sigKey; rewrite ?lenN_app, !lenN_inner_write; cbn [newInnerHeader iContent];
    rewrite ?edsign_len, Hp; lia.
Qed.
Lemma len_enc1 C ck iv p1 p2 : lenN (oInner (bodyEnc1 C ck iv p1 p2)) = lenN p1.
Proof. cbn [bodyEnc1 newOuterHeader oInner]. rewrite xorb_len; [reflexivity|]. rewrite lenN_takeN, ctr_len. lia. Qed.
Lemma len_enc2 C ck iv p1 p2 : lenN (oInner (bodyEnc2 C ck iv p1 p2)) = lenN p2.
Proof. cbn [bodyEnc2 newOuterHeader oInner]. rewrite xorb_len; [reflexivity|]. rewrite lenN_dropN, ctr_len. lia. Qed.
Lemma sealBody_len C mk iv content sigKey pad body : lenN content <= 41691 -> lenN iv = 16 ->
  sealBody C mk iv content sigKey pad = Ok body -> lenN body = 41878.
Proof.
  intros Hl Hi H. apply sealBody_eq in H as (p & Hp & ->); [|exact Hl]. unfold bodyHead.
  rewrite !lenN_app, !lenN_outer_write, len_enc1, len_enc2, len_plain1, len_plain2 by assumption.
  cbn [bodySetup newOuterHeader oInner]. unfold bodyMac. rewrite hmac512_len, Hi. lia.
Qed.

Lemma packet_write t c e i s : outer_type_ok t = true -> c < 2 ^ 32 -> lenN i < 2 ^ 16 ->
  packet t c e (outer_write (newOuterHeader t c i) true ++ s) = Ok (newOuterHeader t c i, s).
Proof.
  intros. unfold packet. rewrite readOuter_write by assumption. cbn [rbind newOuterHeader oType oCount].
  rewrite !N.eqb_refl. reflexivity.
Qed.
Lemma outer_hmac mac : lenN mac = 64 -> mkOuter hmacPacket 64 5 mac = newOuterHeader hmacPacket 5 mac.
Proof. intros H. unfold newOuterHeader. rewrite H. reflexivity. Qed.

(* opening the first part of a sealed body *)
Lemma openContent_seal C mk iv content sigKey p s : lenN content <= 41691 -> lenN iv = 16 -> lenN p = padLen content sigKey ->
  let p1 := plain1 content sigKey in let p2 := plain2 C content sigKey p in
  let ck := takeN 32 (hkdf512 C mk 64) in
  openContent C mk (bodyHead C mk iv p1 p2 ++ s) =
  Ok (bodySetup iv, bodyEnc1 C ck iv p1 p2, newInnerHeader (match sigKey with Some _ => dataSignType | None => dataType end) false content,
      outer_write (bodyEnc2 C ck iv p1 p2) true ++ s).
Proof.
  intros Hl Hi Hp p1 p2 ck. unfold openContent. rewrite derive_eq. unfold bodyHead. fold ck.
  pose proof (len_plain1 content sigKey) as L1. fold p1 in L1.
  pose proof (len_plain2 C content sigKey p Hl Hp) as L2. fold p2 in L2.
  rewrite <- !app_assoc. unfold bodySetup. rewrite packet_write by (try reflexivity; rewrite Hi; reflexivity). cbn [rbind].
  cbn [newOuterHeader oPLen oInner]. rewrite Hi. change (16 mod 2 ^ 16 =? 16) with true. cbn [negb].
  pose proof (len_enc1 C ck iv p1 p2) as LE. unfold bodyEnc1 in *. cbn [newOuterHeader oInner] in LE.
  rewrite packet_write by (try reflexivity; rewrite LE, L1; lia). cbn [rbind newOuterHeader oInner].
  rewrite LE.
  rewrite <- (ctr_prefix C ck iv (lenN p1) (lenN p1 + lenN p2)) by lia.
  rewrite xorb_invol by (rewrite lenN_takeN, ctr_len; lia).
  unfold p1 at 1, plain1. rewrite <- (app_nil_r (inner_write _)).
  rewrite readInner_write by (try (destruct sigKey; reflexivity); lia). cbn [rbind newInnerHeader iType].
  destruct sigKey; reflexivity.
Qed.

(* opening the second part *)
Lemma openRest_seal C mk iv content sigKey p s uidJ u : lenN content <= 41691 -> lenN iv = 16 -> lenN p = padLen content sigKey ->
  newJSONUid uidJ = Ok u ->
  (forall k, sigKey = Some k -> pub32 (uSigKey u) = Ok (edpub C k)) ->
  let p1 := plain1 content sigKey in let p2 := plain2 C content sigKey p in
  let ck := takeN 32 (hkdf512 C mk 64) in
  openRest C mk uidJ (bodySetup iv) (bodyEnc1 C ck iv p1 p2)
    (newInnerHeader (match sigKey with Some _ => dataSignType | None => dataType end) false content)
    (outer_write (bodyEnc2 C ck iv p1 p2) true ++ outer_write (mkOuter hmacPacket 64 5 (bodyMac C mk iv p1 p2)) true ++ s)
  = Ok (match sigKey with Some k => b64enc (edsign C k (sha512 C content)) | None => [] end).
Proof.
  intros Hl Hi Hp HU HS p1 p2 ck. unfold openRest. rewrite derive_eq. fold ck.
  pose proof (len_plain1 content sigKey) as L1. fold p1 in L1.
  pose proof (len_plain2 C content sigKey p Hl Hp) as L2. fold p2 in L2.
  pose proof (len_enc1 C ck iv p1 p2) as LE1. pose proof (len_enc2 C ck iv p1 p2) as LE2.
  assert (HM : lenN (bodyMac C mk iv p1 p2) = 64) by apply hmac512_len.
  unfold bodyEnc2 at 1. rewrite packet_write by (try reflexivity; unfold bodyEnc2 in LE2; cbn [newOuterHeader oInner] in LE2; rewrite LE2, L2; lia).
  fold (bodyEnc2 C ck iv p1 p2). cbn [rbind]. rewrite LE1, LE2.
  cbn [bodySetup newOuterHeader oInner].
  match goal with |- context [readInnerHeader ?x] => replace x with p2 end.
  2:{ unfold bodyEnc2. cbn [newOuterHeader oInner]. rewrite xorb_invol; [reflexivity|]. rewrite lenN_dropN, ctr_len. lia. }
  assert (HP : lenN p < 2 ^ 16) by (rewrite Hp; unfold padLen; destruct sigKey; lia).
  rewrite (outer_hmac _ HM).
  destruct sigKey as [k|].
  - unfold p2 at 1, plain2. rewrite readInner_write by (try reflexivity; rewrite edsign_len; reflexivity).
    cbn [rbind newInnerHeader iType iContent].
    change (N.land dataSignType signType =? 0) with false. cbn [negb]. change (N.land signatureType signatureType =? 0) with false. cbv iota.
    rewrite edsign_len. change (64 =? 64) with true. cbn [negb rbind]. rewrite HU. cbn [rbind]. rewrite (HS k eq_refl). cbn [rbind].
    rewrite edverify_sign. cbn [rbind].
    rewrite packet_write by (try reflexivity; rewrite HM; reflexivity). cbn [rbind].
    match goal with |- context [beq ?a ?b] => replace a with b; [rewrite beq_refl; reflexivity|] end.
    cbn [newOuterHeader oInner]. unfold bodyMac at 1. fold ck. unfold outer_write at 4 8. cbn [newOuterHeader oType oPLen oCount].
    fold p1 p2. rewrite HM. change (64 mod 2 ^ 16) with 64. reflexivity.
  - unfold p2 at 1, plain2. rewrite <- (app_nil_r (inner_write _)). rewrite readInner_write by (try reflexivity; assumption).
    cbn [rbind newInnerHeader iType iContent].
    change (N.land dataType signType =? 0) with true. cbn [negb]. change (N.land paddingType paddingType =? 0) with false. cbn [rbind].
    rewrite HU. cbn [rbind].
    rewrite packet_write by (try reflexivity; rewrite HM; reflexivity). cbn [rbind].
    match goal with |- context [beq ?a ?b] => replace a with b; [rewrite beq_refl; reflexivity|] end.
    cbn [newOuterHeader oInner]. unfold bodyMac at 1. fold ck. unfold outer_write at 4 8. cbn [newOuterHeader oType oPLen oCount].
    fold p1 p2. rewrite HM. change (64 mod 2 ^ 16) with 64. reflexivity.
Qed.

(* ---- the whole of Encrypt ---- *)
Definition preBytes (C : Crypto) (hpriv : bytes) : bytes := preheader_write (newPreHeader (dhpub C hpriv)).
Definition rawMsg (C : Crypto) (hpriv hp body : bytes) : bytes :=
  outer_write (newOuterHeader preHeaderPacket 0 (preBytes C hpriv)) true ++ outer_write (newOuterHeader encryptedHeader 1 hp) true ++ body.
Definition encContent (a : encArgs) : bytes := if eStatus a =? StatusOK then eContent a else [].
Definition bumped (ss : state) : state :=
  mkState (stSessCount ss) (u64 (stMsgCount ss + 1)) (stMaxRecv ss) (stRecipTemp ss) (stSenderPub ss)
          (stNextSender ss) (stNextSeen ss) (stNym ss) (stKeyInit ss).
Lemma emit_eq o w : emit o w = (Ok tt, step_op w o).
Proof. reflexivity. Qed.
Lemma delMessageKey_ok sk b i w u w' : delMessageKey sk b i w = (Ok u, w') -> w' = step_op w (ODelMsgKey sk b i).
Proof.
  unfold delMessageKey. intros H. apply mbind_ok in H as (n & w1 & H1 & H2).
  unfold numMessageKeys in H1. injection H1 as _ <-. destruct (n <=? i); [discriminate|]. rewrite emit_eq in H2. congruence.
Qed.
Lemma delMessageKey_does sk b i w k : getMessageKeyR sk b i (wStore w) = Ok k -> delMessageKey sk b i w = (Ok tt, step_op w (ODelMsgKey sk b i)).
Proof.
  unfold getMessageKeyR, delMessageKey, mbind, numMessageKeys. destruct (memSession sk (wStore w)) as [s| |]; cbn [rbind]; try discriminate.
  destruct (lenN (sSend s) <=? i); [discriminate|reflexivity].
Qed.
Record encOk (C : Crypto) (a : encArgs) (r : encRnd) (w : world) (nym : bytes) (w' : world)
    (ss : state) (w1 w2 : world) (hp sk mk body fk tk : bytes) : Prop := {
  eo_state : encState C a r w = (Ok (nym, ss), w1);
  eo_header : encHeader C a r ss = Ok hp;
  eo_key : encKey C a ss w1 = (Ok (sk, mk), w2);
  eo_len : lenN (encContent a) <= 41691;
  eo_body : sealBody C mk (rIv r) (encContent a) (eSigKey a) (rPad r) = Ok body;
  eo_size : lenN (b64enc (rawMsg C (rHeaderPriv r) hp body)) = 65536;
  eo_from : (do k <- pubKey (idUid (eFrom a)); pub32 k) = Ok fk;
  eo_to : (do k <- pubKey (eTo a); pub32 k) = Ok tk;
  eo_end : w' = steps w2 [OOutput (b64enc (rawMsg C (rHeaderPriv r) hp body)); ODelMsgKey sk true (stMsgCount ss);
                          OSetState (calcStateKey C fk tk) (bumped ss)] }.
Lemma encrypt_ok C a r w nym w' : encrypt C a r w = (Ok nym, w') ->
  exists ss w1 w2 hp sk mk body fk tk, encOk C a r w nym w' ss w1 w2 hp sk mk body fk tk.
Proof.
  unfold encrypt. intros H. apply mbind_ok in H as ([nym' ss] & w1 & H1 & H).
  apply mbind_ok in H as (hp & w1' & H2 & H). unfold lift in H2. injection H2 as H2 <-.
  apply mbind_ok in H as ([sk mk] & w2 & H3 & H). cbv zeta in H. fold (encContent a) in H.
  rewrite MaxContentLength_eq in H. destruct (N.ltb_spec 41691 (lenN (encContent a))) as [|HL]; [discriminate|].
  apply mbind_ok in H as (body & w2' & H4 & H). unfold lift in H4. injection H4 as H4 <-.
  fold (preBytes C (rHeaderPriv r)) in H. fold (rawMsg C (rHeaderPriv r) hp body) in H.
  destruct (N.eqb_spec (lenN (b64enc (rawMsg C (rHeaderPriv r) hp body))) EncodedMsgSize) as [HS|]; [|discriminate]. cbn [negb] in H.
  apply mbind_ok in H as (u & w3 & H5 & H). rewrite emit_eq in H5. injection H5 as _ <-.
  apply mbind_ok in H as (u2 & w4 & H6 & H). apply delMessageKey_ok in H6. subst w4.
  apply mbind_ok in H as (fke & w5 & H7 & H). unfold lift in H7. injection H7 as H7 <-.
  apply mbind_ok in H as (fk & w5 & H8 & H). unfold lift in H8. injection H8 as H8 <-.
  apply mbind_ok in H as (tke & w5 & H9 & H). unfold lift in H9. injection H9 as H9 <-.
  apply mbind_ok in H as (tk & w5 & H10 & H). unfold lift in H10. injection H10 as H10 <-.
  apply mbind_ok in H as (u3 & w5 & H11 & H). rewrite emit_eq in H11. injection H11 as _ <-.
  unfold mret in H. injection H as <- <-.
  exists ss, w1, w2, hp, sk, mk, body, fk, tk. constructor; try assumption; try reflexivity.
  - rewrite H7. cbn [rbind]. exact H8.
  - rewrite H9. cbn [rbind]. exact H10.
Qed.
Lemma traced_out {A} P (m : M A) w r w' : traced P m -> m w = (r, w') -> (forall o, P o -> out_of o = []) -> wOut w' = wOut w.
Proof.
  intros T E HP. destruct (T w) as (l & E2 & F). rewrite E in E2. cbn [snd] in E2. subst w'. rewrite steps_out.
  assert (Z : flat_map out_of l = []).
  { clear E. induction F as [|o l Ho F IH]; [reflexivity|]. cbn [flat_map]. rewrite (HP o Ho), IH. reflexivity. }
  rewrite Z. apply app_nil_r.
Qed.
Lemma keyOp_out o : keyOp o -> out_of o = [].
Proof. destruct o; cbn; intros H; try reflexivity; destruct H. Qed.
Lemma decOp_out o : decOp o -> out_of o = [].
Proof. intros [H|H]; [now apply keyOp_out|]. destruct o; cbn in *; try reflexivity; destruct H. Qed.
Lemma encrypt_out C a r w nym w' ss w1 w2 hp sk mk body fk tk : encOk C a r w nym w' ss w1 w2 hp sk mk body fk tk ->
  wOut w' = wOut w ++ b64enc (rawMsg C (rHeaderPriv r) hp body).
Proof.
  intros H. destruct H as [H1 H2 H3 H4 H5 H6 H7 H8 ->]. rewrite steps_out. cbn [flat_map out_of]. rewrite !app_nil_r.
  rewrite (traced_out _ _ _ _ _ (traced_encKey C a ss) H3 keyOp_out), (traced_out _ _ _ _ _ (traced_encState C a r) H1 keyOp_out). reflexivity.
Qed.
Lemma lenN_preBytes C hpriv : lenN (preBytes C hpriv) = 66.
Proof.
  unfold preBytes, preheader_write. rewrite !lenN_app, !lenN_be. cbn [newPreHeader pSuite pPub]. rewrite dhpub_len. reflexivity.
Qed.
Lemma rawMsg_len C hpriv hp body : lenN (rawMsg C hpriv hp body) = 80 + lenN hp + lenN body.
Proof. unfold rawMsg. rewrite !lenN_app, !lenN_outer_write. cbn [newOuterHeader oInner]. rewrite lenN_preBytes. lia. Qed.
Lemma encOk_len C a r w nym w' ss w1 w2 hp sk mk body fk tk : encOk C a r w nym w' ss w1 w2 hp sk mk body fk tk ->
  lenN (rIv r) = 16 -> 7192 <= lenN hp <= 7194.
Proof.
  intros H Hi. pose proof (eo_size _ _ _ _ _ _ _ _ _ _ _ _ _ _ _ H) as L.
  rewrite lenN_b64enc, rawMsg_len in L.
  rewrite (sealBody_len _ _ _ _ _ _ _ (eo_len _ _ _ _ _ _ _ _ _ _ _ _ _ _ _ H) Hi (eo_body _ _ _ _ _ _ _ _ _ _ _ _ _ _ _ H)) in L.
  lia.
Qed.

(* ---- reading the header ---- *)
Definition hdrOf (C : Crypto) (a : encArgs) (r : encRnd) (ss : state) : res header :=
  newHeader C (idUid (eFrom a)) (eTo a) (keHash (stRecipTemp ss)) (stSenderPub ss) (stNextSender ss) (stNextSeen ss)
    (eNym a) (stSessCount ss) (stMsgCount ss) (eKeychain a) (rHdrPad r) (eStatus a).
(* an identity that cannot open the header but is well formed is skipped *)
Definition skipsId (C : Crypto) (box nonce hpub : bytes) (j : ident) : Prop :=
  exists ke p priv, pubKey (idUid j) = Ok ke /\ pub32 ke = Ok p /\ priv32 ke (idEncPriv j) = Ok priv /\ boxopen C box nonce hpub priv = None.
Definition opensId (C : Crypto) (i : ident) (ke : keyEntry) (priv : bytes) : Prop :=
  pubKey (idUid i) = Ok ke /\ pub32 ke = Ok (dhpub C priv) /\ priv32 ke (idEncPriv i) = Ok priv.
Lemma tryOpen_skip C box nonce hpub pre i post ke priv m :
  Forall (skipsId C box nonce hpub) pre -> opensId C i ke priv -> boxopen C box nonce hpub priv = Some m ->
  tryOpen C (pre ++ i :: post) box nonce hpub = Ok (i, m).
Proof.
  intros F (H1 & H2 & H3) Hb. induction F as [|j pre (kj & p & pv & J1 & J2 & J3 & J4) F IH]; cbn [app tryOpen].
  - rewrite H1. cbn [rbind]. rewrite H2. cbn [rbind]. rewrite H3. cbn [rbind]. rewrite Hb. reflexivity.
  - rewrite J1. cbn [rbind]. rewrite J2. cbn [rbind]. rewrite J3. cbn [rbind]. rewrite J4. exact IH.
Qed.
Lemma headerPacket_inv C h rpub hpriv nonce hp : headerPacket C h rpub hpriv nonce = Ok hp ->
  let box := boxseal C (jprint (headerToJson h)) nonce rpub hpriv in
  hp = nonce ++ be 2 7168 ++ box /\ lenN box mod 2 ^ 16 = 7168.
Proof.
  unfold headerPacket, lengthEncryptedHeader. destruct (N.eqb_spec (lenN (boxseal C (jprint (headerToJson h)) nonce rpub hpriv) mod 2 ^ 16) 7168) as [E|]; [|discriminate].
  cbn [negb]. intros H. apply Ok_inj in H. cbv zeta. rewrite E in H. auto.
Qed.
Lemma readHeader_seal C h pub priv hpriv nonce hp pre i post ke :
  headerPacket C h pub hpriv nonce = Ok hp -> lenN hp < 2 ^ 16 -> lenN nonce = 24 ->
  pub = dhpub C priv -> opensId C i ke priv ->
  Forall (skipsId C (boxseal C (jprint (headerToJson h)) nonce pub hpriv) nonce (dhpub C hpriv)) pre ->
  headerWf h -> headerVerify C h = Ok tt ->
  readHeader C (dhpub C hpriv) (pre ++ i :: post) hp = Ok (i, h).
Proof.
  intros HP HL HN -> HI HF HW HV. apply headerPacket_inv in HP as [-> HB]. cbv zeta in *.
  set (box := boxseal C (jprint (headerToJson h)) nonce (dhpub C priv) hpriv) in *.
  assert (LB : lenN box = 7168).
  { rewrite !lenN_app, lenN_be in HL. rewrite N.mod_small in HB by lia. exact HB. }
  unfold readHeader. rewrite rd_app by exact HN. cbn [rbind]. rewrite (rd_be_app 2) by reflexivity. cbn [rbind].
  rewrite <- (app_nil_r box) at 1. rewrite rd_app by exact LB. cbn [rbind].
  rewrite (tryOpen_skip C box nonce (dhpub C hpriv) pre i post ke priv (jprint (headerToJson h))); [|exact HF|exact HI|apply boxopen_seal].
  cbn [rbind]. rewrite jparse_print by apply jwf_header. rewrite headerOfJson_to by exact HW. rewrite HV. reflexivity.
Qed.

(* ---- everything written consists of bytes ---- *)
Inductive jb : json -> Prop :=
| jb_null : jb JNull
| jb_bool b : jb (JBool b)
| jb_num l : wfb l -> jb (JNum l)
| jb_str s : wfb s -> jb (JStr s)
| jb_arr l : Forall jb l -> jb (JArr l)
| jb_obj l : Forall (fun p => wfb (fst p) /\ jb (snd p)) l -> jb (JObj l).
Lemma wfb_cons x l : wfb (x :: l) <-> x < 256 /\ wfb l.
Proof. unfold wfb. rewrite Forall_cons_iff. reflexivity. Qed.
Lemma wfb_nil : wfb [].
Proof. constructor. Qed.
Lemma hexchar_b n : n < 16 -> hexchar n < 256.
Proof. intros H. unfold hexchar. destruct (n <? 10); lia. Qed.
Lemma wfb_hexenc b : wfb b -> wfb (hexenc b).
Proof.
  intros H. induction H as [|x b Hx H IH]; [constructor|]. cbn [hexenc]. apply wfb_cons. split; [apply hexchar_b; lia|].
  apply wfb_cons. split; [apply hexchar_b; lia|exact IH].
Qed.
Lemma wfb_jesc c : c < 256 -> wfb (jesc c).
Proof.
  intros H. unfold jesc. repeat match goal with |- wfb (if ?b then _ else _) => destruct b end;
    rewrite ?wfb_cons; repeat split; try constructor; try lia; apply hexchar_b; lia.
Qed.
Lemma wfb_jstr s : wfb s -> wfb (jstr s).
Proof.
  intros H. unfold jstr. rewrite !wfb_app, !wfb_cons. repeat split; try constructor; try lia.
  induction H as [|x s Hx H IH]; [constructor|]. cbn [flat_map]. apply wfb_app. split; [now apply wfb_jesc|exact IH].
Qed.
Lemma wfb_jprint : forall n v, (jsize v <= n)%nat -> jb v -> wfb (jprint v).
Proof.
  induction n as [|n IH]; intros v Hn Hv; [destruct v; cbn in Hn; lia|].
  destruct Hv as [|b|l Hl|s Hs|l Hl|l Hl].
  - apply wfbb_spec. reflexivity.
  - destruct b; apply wfbb_spec; reflexivity.
  - exact Hl.
  - apply wfb_jstr, Hs.
  - cbn [jprint]. rewrite !wfb_app. repeat split; try (apply wfbb_spec; reflexivity).
    cbn [jsize] in Hn. induction Hl as [|x l Hx Hl IHl]; [constructor|].
    destruct l as [|y l].
    + apply IH; [lia|exact Hx].
    + rewrite !wfb_app. split; [apply IH; [lia|exact Hx]|]. split; [apply wfbb_spec; reflexivity|]. apply IHl. lia.
  - cbn [jprint]. rewrite !wfb_app. repeat split; try (apply wfbb_spec; reflexivity).
    cbn [jsize] in Hn. induction Hl as [|[k x] l [Hk Hx] Hl IHl]; [constructor|]. cbn [fst snd] in *.
    destruct l as [|y l].
    + rewrite !wfb_app. split; [apply wfb_jstr, Hk|]. split; [apply wfbb_spec; reflexivity|]. apply IH; [lia|exact Hx].
    + rewrite !wfb_app. split; [apply wfb_jstr, Hk|]. split; [apply wfbb_spec; reflexivity|]. split; [apply IH; [lia|exact Hx]|].
      split; [apply wfbb_spec; reflexivity|]. apply IHl. lia.
Qed.
Definition keB (k : keyEntry) : Prop := wfb (keSuite k) /\ wfb (keFunc k) /\ wfb (keHash k) /\ wfb (kePub k).
Definition keBopt (o : option keyEntry) : Prop := match o with None => True | Some k => keB k end.
Lemma jb_ke k : keB k -> jb (keToJson k).
Proof.
  intros (A & B & D & E). unfold keToJson. constructor. repeat (apply Forall_cons; [cbn [fst snd]; split; [apply wfbb_spec; reflexivity|constructor; assumption]|]).
  constructor.
Qed.
Lemma jb_keopt o : keBopt o -> jb (jopt keToJson o).
Proof. destruct o; [apply jb_ke|constructor]. Qed.
Lemma jb_JN n : jb (JN n).
Proof.
  constructor. pose proof (decimal_digits n) as H. unfold wfb. apply Forall_forall. intros c Hc.
  rewrite forallb_forall in H. specialize (H c Hc). unfold is_digit in H. lia.
Qed.
Definition hdrB (h : header) : Prop :=
  wfb (hSuite h) /\ wfb (hRecipPubHash h) /\ wfb (hRecipTempHash h) /\ wfb (hSender h) /\ keB (hSessPub h) /\
  wfb (hSenderPubHash h) /\ keB (hSenderPub h) /\ keBopt (hNext h) /\ keBopt (hSeen h) /\ wfb (hNym h) /\
  wfb (hUID h) /\ wfb (hKeychain h) /\ wfb (hPadding h).
Lemma wfb_header h : hdrB h -> wfb (jprint (headerToJson h)).
Proof.
  intros (A1 & A2 & A3 & A4 & A5 & A6 & A7 & A8 & A9 & A10 & A11 & A12 & A13). apply (wfb_jprint _ _ (Nat.le_refl _)).
  unfold headerToJson. constructor.
  repeat (apply Forall_cons; [cbn [fst snd]; split; [apply wfbb_spec; reflexivity|]; first [apply jb_JN | apply jb_ke; assumption | apply jb_keopt; assumption | constructor; assumption]|]).
  constructor.
Qed.
Lemma newHeader_pad_wf C from to rth sp next seen nym sc mc kc rand st h : wfb rand ->
  newHeader C from to rth sp next seen nym sc mc kc rand st = Ok h -> wfb (hPadding h).
Proof.
  intros W. unfold newHeader. destruct (negb _); [discriminate|]. intros H.
  apply rbind_ok in H as (tk & _ & H). apply rbind_ok in H as (fk & _ & H). apply rbind_ok in H as (L & _ & H).
  apply rbind_ok in H as (p & Hp & H). apply Ok_inj in H. subst h. cbn [hPadding].
  pose proof (wfb_hexenc _ (padGen_wf _ _ _ _ W Hp)). destruct (_ =? 1)%Z; [now apply wfb_takeN|assumption].
Qed.
Lemma initDHKey_B C p : keB (initDHKey C p).
Proof.
  unfold keB, initDHKey. cbn [keSuite keFunc keHash kePub]. repeat split; try apply wfb_b64enc; apply wfbb_spec; reflexivity.
Qed.
Lemma wfb_outer o b : wfb (oInner o) -> wfb (outer_write o b).
Proof. intros H. unfold outer_write. rewrite !wfb_app. repeat split; try apply wfb_be. destruct b; [exact H|constructor]. Qed.
Lemma wfb_inner i : wfb (iContent i) -> wfb (inner_write i).
Proof. intros H. unfold inner_write. rewrite !wfb_app. repeat split; try apply wfb_be. exact H. Qed.
Lemma sealBody_wf C mk iv content sigKey pad body : wfb iv -> wfb content -> wfb pad ->
  sealBody C mk iv content sigKey pad = Ok body -> wfb body.
Proof.
  intros Hi Hc Hp. unfold sealBody. rewrite derive_eq. intros H. apply rbind_ok in H as (p2 & H2 & H). apply Ok_inj in H. subst body.
  assert (W2 : wfb p2).
  { destruct sigKey; apply rbind_ok in H2 as (p & P & H2); apply Ok_inj in H2; subst p2; apply padGen_wf in P; try exact Hp;
      [apply wfb_app; split|]; apply wfb_inner; try exact P. apply edsign_wf. }
  rewrite !wfb_app. repeat split; apply wfb_outer; cbn [newOuterHeader oInner]; try assumption; try apply hmac512_wf;
    apply xorb_wf; try assumption.
  - apply wfb_inner, Hc.
  - apply wfb_takeN, ctr_wf.
  - apply wfb_dropN, ctr_wf.
Qed.

(* ---- Decrypt of what Encrypt produced ---- *)
Definition dhE (C : Crypto) (k : keyEntry) : Prop := exists p, k = initDHKey C p.
Definition dhEopt (C : Crypto) (o : option keyEntry) : Prop := match o with None => True | Some k => dhE C k end.
(* what the caller of Encrypt supplies, and the state of the conversation, are as they should be *)
Record encWf (C : Crypto) (a : encArgs) (r : encRnd) (ss : state) : Prop := {
  ew_uid : uidWf (idUid (eFrom a));
  ew_uidb : wfb (uidJSON (idUid (eFrom a)));
  ew_id : wfb (uIdentity (idUid (eFrom a)));
  ew_nym : wfb (eNym a);
  ew_kc : wfb (eKeychain a);
  ew_content : wfb (eContent a);
  ew_st : eStatus a < 256;
  ew_from : exists k ks, uPubKeys (idUid (eFrom a)) = k :: ks /\ dhE C k;
  ew_to : exists k ks, uPubKeys (eTo a) = k :: ks /\ dhE C k;
  ew_sig : forall k, eSigKey a = Some k -> pub32 (uSigKey (idUid (eFrom a))) = Ok (edpub C k);
  ew_nonce : lenN (rNonce r) = 24 /\ wfb (rNonce r);
  ew_iv : lenN (rIv r) = 16 /\ wfb (rIv r);
  ew_pad : wfb (rPad r);
  ew_hpad : wfb (rHdrPad r);
  ew_temp : dhE C (stRecipTemp ss);
  ew_sess : dhE C (stSenderPub ss);
  ew_next : dhEopt C (stNextSender ss);
  ew_seen : dhEopt C (stNextSeen ss);
  ew_sc : stSessCount ss < 2 ^ 64;
  ew_mc : stMsgCount ss < 2 ^ 64 }.
Lemma dhE_B C k : dhE C k -> keB k.
Proof. intros (p & ->). apply initDHKey_B. Qed.
Lemma verifyDH_dhE C k e : dhE C k -> verifyDH C k e = Ok tt.
Proof. intros (p & ->). unfold verifyDH. rewrite initDHKey_verify. reflexivity. Qed.
Lemma encHeader_inv C a r ss hp : encHeader C a r ss = Ok hp -> exists h rpub,
  hdrOf C a r ss = Ok h /\ publicKey (eTo a) = Ok rpub /\ headerPacket C h rpub (rHeaderPriv r) (rNonce r) = Ok hp.
Proof.
  unfold encHeader. intros H. apply rbind_ok in H as (h & H1 & H). apply rbind_ok in H as (p & H2 & H). exists h, p. auto.
Qed.
Lemma hdrOf_inv C a r ss h : hdrOf C a r ss = Ok h -> encWf C a r ss ->
  hUID h = uidJSON (idUid (eFrom a)) /\ hMsgCount h = stMsgCount ss /\ hSender h = uIdentity (idUid (eFrom a)) /\
  hRecipTempHash h = keHash (stRecipTemp ss) /\ hSessPub h = stSenderPub ss /\ hNext h = stNextSender ss /\ hSeen h = stNextSeen ss /\
  Ok (hSenderPub h) = pubKey (idUid (eFrom a)) /\ hNym h = eNym a /\
  headerWf h /\ headerVerify C h = Ok tt /\ hdrB h.
Proof.
  intros H W. pose proof H as H0. unfold hdrOf in H. apply newHeader_inv in H as (tk & tks & fk & fks & pad & _ & Ht & Hf & _ & _ & _ & E & _ & _).
  assert (WP : wfb (hPadding h)) by (eapply newHeader_pad_wf; [apply (ew_hpad _ _ _ _ W)|exact H0]).
  destruct W. destruct ew_from0 as (k & ks & F1 & F2). rewrite Hf in F1. injection F1 as <- <-.
  destruct ew_to0 as (k & ks' & T1 & T2). rewrite Ht in T1. injection T1 as <- <-.
  subst h. cbn [hSuite hRecipPubHash hRecipTempHash hSender hSessPub hSenderPubHash hSenderPub hNext hSeen hNym hMaxDelay hSessCount hMsgCount hUID hKeychain hStatus hPadding] in *.
  repeat (split; [reflexivity|]). split; [unfold pubKey; rewrite Hf; reflexivity|]. split; [reflexivity|]. split; [|split].
  - unfold headerWf. cbn [hMaxDelay hSessCount hMsgCount hStatus]. lia.
  - unfold headerVerify. cbn [hSessPub hSenderPub hNext hSeen].
    rewrite !verifyDH_dhE by assumption. cbn [rbind].
    destruct (stNextSender ss); cbn [verifyOpt]; rewrite ?verifyDH_dhE by assumption; cbn [rbind];
    destruct (stNextSeen ss); cbn [verifyOpt]; rewrite ?verifyDH_dhE by assumption; reflexivity.
  - unfold hdrB. cbn [hSuite hRecipPubHash hRecipTempHash hSender hSessPub hSenderPubHash hSenderPub hNext hSeen hNym hMaxDelay hSessCount hMsgCount hUID hKeychain hStatus hPadding].
    split; [apply wfbb_spec; reflexivity|].
    split; [apply (dhE_B _ _ T2)|]. split; [apply (dhE_B _ _ ew_temp0)|]. split; [assumption|]. split; [apply (dhE_B _ _ ew_sess0)|].
    split; [apply (dhE_B _ _ F2)|]. split; [apply (dhE_B _ _ F2)|].
    split; [destruct (stNextSender ss); [apply (dhE_B _ _ ew_next0)|exact I]|].
    split; [destruct (stNextSeen ss); [apply (dhE_B _ _ ew_seen0)|exact I]|].
    repeat (split; [assumption|]). assumption.
Qed.
Lemma encContent_wf C a r ss : encWf C a r ss -> wfb (encContent a).
Proof. intros W. unfold encContent. destruct (_ =? _); [apply (ew_content _ _ _ _ W)|constructor]. Qed.
Lemma lift_bind {A B} (x : A) (f : A -> M B) w : mbind (lift (Ok x)) f w = f x w.
Proof. reflexivity. Qed.
Lemma bind_ok {A B} (m : M A) (f : A -> M B) w a w1 : m w = (Ok a, w1) -> mbind m f w = f a w1.
Proof. unfold mbind. now intros ->. Qed.
(* the signature that Decrypt reports *)
Definition sigText (C : Crypto) (a : encArgs) : bytes :=
  match eSigKey a with Some k => b64enc (edsign C k (sha512 C (encContent a))) | None => [] end.
Lemma receive_encrypted C a r w nym w' ss w1 w2 hp sk mk body fk tk h rpub ra pre i post ike ipriv v ke sk' oss v1 v2 :
  encOk C a r w nym w' ss w1 w2 hp sk mk body fk tk -> encWf C a r ss ->
  hdrOf C a r ss = Ok h -> publicKey (eTo a) = Ok rpub -> headerPacket C h rpub (rHeaderPriv r) (rNonce r) = Ok hp ->
  dIds ra = pre ++ i :: post -> opensId C i ike ipriv -> rpub = dhpub C ipriv ->
  Forall (skipsId C (boxseal C (jprint (headerToJson h)) (rNonce r) rpub (rHeaderPriv r)) (rNonce r) (dhpub C (rHeaderPriv r))) pre ->
  decState C ra (dhpub C (rHeaderPriv r)) i h v = (Ok (ke, sk', oss), v1) ->
  decKey C i ke h sk' oss (numKeys (dNumKeys ra)) v1 = (Ok mk, v2) ->
  receive C ra (b64enc (rawMsg C (rHeaderPriv r) hp body)) v =
    (Ok (uIdentity (idUid (eFrom a)), sigText C a), steps v2 [OOutput (encContent a); ODelMsgKey sk' false (stMsgCount ss)]).
Proof.
  intros E W HH HR HP HD HI HRP HF DS DK.
  pose proof (hdrOf_inv _ _ _ _ _ HH W) as (U1 & U2 & U3 & _ & _ & _ & _ & _ & _ & HW & HV & HB).
  destruct (ew_iv _ _ _ _ W) as [LI WI]. destruct (ew_nonce _ _ _ _ W) as [LN WN].
  pose proof (encOk_len _ _ _ _ _ _ _ _ _ _ _ _ _ _ _ E LI) as LH.
  pose proof (eo_len _ _ _ _ _ _ _ _ _ _ _ _ _ _ _ E) as LC.
  pose proof (eo_body _ _ _ _ _ _ _ _ _ _ _ _ _ _ _ E) as EB.
  pose proof (sealBody_wf _ _ _ _ _ _ _ WI (encContent_wf _ _ _ _ W) (ew_pad _ _ _ _ W) EB) as WB.
  assert (WHP : wfb hp).
  { pose proof (headerPacket_inv _ _ _ _ _ _ HP) as [-> _]. rewrite !wfb_app. repeat split; [exact WN|apply wfb_be|].
    apply boxseal_wf, wfb_header, HB. }
  unfold receive. rewrite b64dec_enc.
  2:{ unfold rawMsg. rewrite !wfb_app. split; [|split; [|exact WB]]; apply wfb_outer; cbn [newOuterHeader oInner]; [|exact WHP].
      unfold preBytes, preheader_write. rewrite !wfb_app. repeat split; try apply wfb_be; [apply wfbb_spec; reflexivity|apply dhpub_wf]. }
  unfold rawMsg, preBytes. rewrite readFirst_write by (rewrite dhpub_len; reflexivity).
  rewrite lift_bind. rewrite N.eqb_refl. cbn [negb].
  unfold decrypt, decHeader. rewrite <- (app_nil_r (preheader_write _)). rewrite readPre_write by (rewrite dhpub_len; reflexivity).
  cbn [rbind]. cbn [newPreHeader pLenPub pPub]. rewrite dhpub_len. change (32 mod 2 ^ 16 =? 32) with true. cbn [negb].
  rewrite packet_write by (try reflexivity; lia). cbn [rbind newOuterHeader oInner]. rewrite HD.
  erewrite readHeader_seal; [|exact HP|lia|exact LN|exact HRP|exact HI|exact HF|exact HW|exact HV]. cbn [rbind]. rewrite lift_bind.
  erewrite bind_ok by exact DS. cbv beta iota. erewrite bind_ok by exact DK. cbv beta iota.
  apply sealBody_eq in EB as (p & Hp & ->); [|exact LC]. cbv zeta.
  rewrite (openContent_seal C mk (rIv r) (encContent a) (eSigKey a) p _ LC LI Hp). rewrite lift_bind.
  erewrite bind_ok by (apply emit_eq). cbn [newInnerHeader iContent].
  assert (HN : newJSONUid (hUID h) = Ok (idUid (eFrom a))).
  { rewrite U1. apply newJSONUid_JSON, (ew_uid _ _ _ _ W). }
  pose proof (openRest_seal C mk (rIv r) (encContent a) (eSigKey a) p [] (hUID h) _ LC LI Hp HN (ew_sig _ _ _ _ W)) as OR.
  cbv zeta in OR. rewrite app_nil_r in OR. cbv beta iota. first [rewrite OR | unfold newInnerHeader in OR |- *; cbv iota in OR |- *; rewrite OR]. rewrite lift_bind.
  assert (GK : getMessageKeyR sk' false (hMsgCount h) (wStore v2) = Ok mk).
  { unfold decKey in DK. apply mbind_ok in DK as (n & x & D1 & DK). apply mbind_ok in DK as (n2 & x2 & D2 & DK).
    unfold getMessageKey in DK. injection DK as DK <-. exact DK. }
  erewrite bind_ok.
  2:{ eapply delMessageKey_does. cbn [step_op wStore apply_op]. exact GK. }
  rewrite U2, U3. reflexivity.
Qed.
