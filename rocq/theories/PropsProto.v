(* Theorems for C01, C02, C07, C09: Encrypt and Decrypt. *)
From Verif Require Import Base Base64Model Base64Proofs CodecModel CodecProofs JsonModel JsonProofs Maps CryptoModel StoreModel KeysModel KeysProofs MsgFormatModel MsgFormatProofs HeaderModel HeaderProofs PropsKeys PropsHeader ProtoModel ProtoProofs ProtoFirst.
Local Open Scope N_scope.

(* ------------------------------ C01 ------------------------------- *)
(* Every successful call writes exactly 65536 characters, and the content had at most 41691 bytes. *)
Theorem C01_fixed_size : forall C a r st nym w',
  run (encrypt C a r) st = (Ok nym, w') -> lenN (wOut w') = 65536 /\ (eStatus a = 0 -> lenN (eContent a) <= 41691).
Proof.
  intros C a r st nym w' H. unfold run in H. apply encrypt_ok in H as (ss & w1 & w2 & hp & sk & mk & body & fk & tk & E).
  rewrite (encrypt_out _ _ _ _ _ _ _ _ _ _ _ _ _ _ _ E). cbn [wOut app]. rewrite (eo_size _ _ _ _ _ _ _ _ _ _ _ _ _ _ _ E).
  split; [reflexivity|]. intros S. pose proof (eo_len _ _ _ _ _ _ _ _ _ _ _ _ _ _ _ E) as L. unfold encContent in L. rewrite S in L. exact L.
Qed.
(* The final length check never fails: once the header packet has its one size (C03) and the message key has been
   found, every content of at most 41691 bytes, signed or not, is encrypted. *)
Theorem C01_never_fails_on_size : forall C a r w nym ss w1 hp sk mk w2,
  encState C a r w = (Ok (nym, ss), w1) -> encHeader C a r ss = Ok hp -> lenN hp = 7194 -> encKey C a ss w1 = (Ok (sk, mk), w2) ->
  lenN (eContent a) <= 41691 -> lenN (rIv r) = 16 -> lenN (rPad r) = 32 ->
  exists w', encrypt C a r w = (Ok nym, w') /\ lenN (wOut w') = lenN (wOut w) + 65536.
Proof.
  intros C a r w nym ss w1 hp sk mk w2 H1 H2 LH H3 HC HI HP.
  assert (LC : lenN (encContent a) <= 41691) by (unfold encContent; destruct (_ =? _); [exact HC|rewrite lenN_nil; lia]).
  destruct (sealBody_ok C mk (rIv r) (encContent a) (eSigKey a) (rPad r) LC HP (fun _ => I)) as [body HB].
  pose proof (sealBody_len _ _ _ _ _ _ _ LC HI HB) as LB.
  assert (E : exists w', encrypt C a r w = (Ok nym, w')).
  { unfold encrypt. erewrite bind_ok by exact H1. cbv beta iota. rewrite H2, lift_bind. erewrite bind_ok by exact H3. cbv beta iota zeta.
    fold (encContent a). rewrite MaxContentLength_eq. destruct (N.ltb_spec 41691 (lenN (encContent a))); [lia|].
    rewrite HB, lift_bind. fold (preBytes C (rHeaderPriv r)). fold (rawMsg C (rHeaderPriv r) hp body).
    rewrite lenN_b64enc, rawMsg_len, LH, LB. change (negb (4 * ((80 + 7194 + 41878 + 2) / 3) =? EncodedMsgSize)) with false. cbv iota.
    erewrite bind_ok by reflexivity.
    assert (GK : getMessageKeyR sk true (stMsgCount ss) (wStore w2) = Ok mk).
    { unfold encKey in H3. apply mbind_ok in H3 as (k1 & v1 & _ & H3). apply mbind_ok in H3 as (k2 & v2 & _ & H3).
      apply mbind_ok in H3 as (k3 & v3 & _ & H3). apply mbind_ok in H3 as (k4 & v4 & _ & H3). apply mbind_ok in H3 as (k5 & v5 & H4 & H3).
      unfold mret in H3. injection H3 as <- <- <-. unfold getMessageKey in H4. injection H4 as H4 <-. exact H4. }
    erewrite bind_ok by (eapply delMessageKey_does; cbn [step_op wStore apply_op]; exact GK).
    unfold encState in H1. apply mbind_ok in H1 as (k1 & v1 & E1 & H1). unfold lift in E1. injection E1 as E1 <-.
    apply mbind_ok in H1 as (k2 & v2 & E2 & H1). unfold lift in E2. injection E2 as E2 <-.
    apply mbind_ok in H1 as (k3 & v3 & E3 & H1). unfold lift in E3. injection E3 as E3 <-.
    apply mbind_ok in H1 as (k4 & v4 & E4 & H1). unfold lift in E4. injection E4 as E4 <-.
    rewrite E1, lift_bind, E2, lift_bind, E3, lift_bind, E4, lift_bind. erewrite bind_ok by reflexivity. eexists. reflexivity. }
  destruct E as [w' E]. exists w'. split; [exact E|].
  apply encrypt_ok in E as (ss' & w1' & w2' & hp' & sk' & mk' & body' & fk & tk & E).
  rewrite (encrypt_out _ _ _ _ _ _ _ _ _ _ _ _ _ _ _ E), lenN_app, (eo_size _ _ _ _ _ _ _ _ _ _ _ _ _ _ _ E). reflexivity.
Qed.
(* Longer content is refused and nothing is written. *)
Theorem C01_longer_refused : forall C a r w, eStatus a = 0 -> 41691 < lenN (eContent a) ->
  (forall nym w', encrypt C a r w <> (Ok nym, w')) /\ wOut (snd (encrypt C a r w)) = wOut w.
Proof.
  intros C a r w S L. split.
  - intros nym w' H. apply encrypt_ok in H as (ss & w1 & w2 & hp & sk & mk & body & fk & tk & E).
    pose proof (eo_len _ _ _ _ _ _ _ _ _ _ _ _ _ _ _ E) as L2. unfold encContent in L2. rewrite S in L2. change (0 =? StatusOK) with true in L2. cbv iota in L2. lia.
  - unfold encrypt, mbind at 1. destruct (encState C a r w) as [[[nym ss]|e|] w1] eqn:E1; cbn [snd];
      pose proof (traced_out _ _ _ _ _ (traced_encState C a r) E1 keyOp_out) as O1; try exact O1.
    unfold mbind at 1, lift at 1. destruct (encHeader C a r ss) as [hp|e|]; cbn [snd]; try exact O1.
    unfold mbind at 1. destruct (encKey C a ss w1) as [[[sk mk]|e|] w2] eqn:E2; cbn [snd];
      pose proof (traced_out _ _ _ _ _ (traced_encKey C a ss) E2 keyOp_out) as O2; try congruence.
    rewrite S. change (0 =? StatusOK) with true. cbv iota zeta. rewrite MaxContentLength_eq.
    destruct (N.ltb_spec 41691 (lenN (eContent a))); [|lia]. cbn [fail snd]. congruence.
Qed.

(* ------------------------------ C02 ------------------------------- *)
(* The message, its header and where the recipient's identity stands in the list of identities tried. *)
Definition addressedTo (C : Crypto) (ra : decArgs) (i : ident) (h : header) (r : encRnd) (priv : bytes) : Prop :=
  exists pre post ke, dIds ra = pre ++ i :: post /\ opensId C i ke priv /\
    Forall (skipsId C (boxseal C (jprint (headerToJson h)) (rNonce r) (dhpub C priv) (rHeaderPriv r)) (rNonce r) (dhpub C (rHeaderPriv r))) pre.
(* If the recipient's store yields the same message key as the sender used, the message decrypts to the content, the
   sender's identity is reported, a signature is reported exactly when a signing key was given, and it verifies. *)
Theorem C02_decrypt_inverts_encrypt : forall C a r st nym w' ra i priv st2,
  run (encrypt C a r) st = (Ok nym, w') ->
  (forall ss w1, run (encState C a r) st = (Ok (nym, ss), w1) -> encWf C a r ss) ->
  publicKey (eTo a) = Ok (dhpub C priv) ->
  (forall ss w1 h sk mk w2, run (encState C a r) st = (Ok (nym, ss), w1) -> hdrOf C a r ss = Ok h -> encKey C a ss w1 = (Ok (sk, mk), w2) ->
     addressedTo C ra i h r priv /\
     exists ke sk' oss v1 v2, run (decState C ra (dhpub C (rHeaderPriv r)) i h) st2 = (Ok (ke, sk', oss), v1) /\
       decKey C i ke h sk' oss (numKeys (dNumKeys ra)) v1 = (Ok mk, v2)) ->
  exists sig v, run (receive C ra (wOut w')) st2 = (Ok (uIdentity (idUid (eFrom a)), sig), v) /\
    wOut v = (if eStatus a =? 0 then eContent a else []) /\
    (sig = [] <-> eSigKey a = None) /\
    (forall k, eSigKey a = Some k -> exists s, b64dec sig = Some s /\ edverify C (edpub C k) (sha512 C (wOut v)) s = true).
Proof.
  intros C a r st nym w' ra i priv st2 H HW HP HR. unfold run in *.
  apply encrypt_ok in H as (ss & w1 & w2 & hp & sk & mk & body & fk & tk & E).
  pose proof (HW _ _ (eo_state _ _ _ _ _ _ _ _ _ _ _ _ _ _ _ E)) as W.
  destruct (encHeader_inv _ _ _ _ _ (eo_header _ _ _ _ _ _ _ _ _ _ _ _ _ _ _ E)) as (h & rpub & HH & HRP & HHP).
  rewrite HP in HRP. apply Ok_inj in HRP. subst rpub.
  destruct (HR _ _ _ _ _ _ (eo_state _ _ _ _ _ _ _ _ _ _ _ _ _ _ _ E) HH (eo_key _ _ _ _ _ _ _ _ _ _ _ _ _ _ _ E)) as ((pre & post & ike & HD & HO & HF) & ke & sk' & oss & v1 & v2 & DS & DK).
  pose proof (receive_encrypted C a r _ nym w' ss w1 w2 hp sk mk body fk tk h _ ra pre i post ike priv _ ke sk' oss v1 v2 E W HH HP HHP HD HO eq_refl HF DS DK) as R.
  exists (sigText C a). eexists. rewrite (encrypt_out _ _ _ _ _ _ _ _ _ _ _ _ _ _ _ E). cbn [wOut app]. split; [exact R|].
  rewrite steps_out. cbn [flat_map out_of]. rewrite !app_nil_r.
  assert (O : wOut v2 = []).
  { rewrite (traced_out _ _ _ _ _ (traced_decKey C i ke h sk' oss _) DK keyOp_out), (traced_out _ _ _ _ _ (traced_decState C ra _ i h) DS decOp_out). reflexivity. }
  rewrite O. cbn [app]. split; [reflexivity|]. unfold sigText. split.
  - destruct (eSigKey a) as [k|]; [|tauto]. split; [|discriminate]. intros E0.
    assert (L : lenN (b64enc (edsign C k (sha512 C (encContent a)))) = 0) by (rewrite E0; reflexivity).
    rewrite lenN_b64enc, edsign_len in L. discriminate.
  - intros k ->. eexists. split; [apply b64dec_enc, edsign_wf|apply edverify_sign].
Qed.

(* First contact needs no assumption about keys being equal: the recipient has published the key that the sender
   found, and neither side has a session. *)
Theorem C02_first_message : forall C a r st nym w' ra i sa sb kb st2 pre post,
  run (encrypt C a r) st = (Ok nym, w') ->
  firstEnc C a r st sa sb kb nym -> encWf C a r (ssFirst C (rSessPriv r) kb nym) ->
  dIds ra = pre ++ i :: post -> (exists ks, uPubKeys (idUid i) = initDHKey C sb :: ks) -> idEncPriv i = Some sb -> uIdentity (idUid i) = uIdentity (eTo a) ->
  (forall h, hdrOf C a r (ssFirst C (rSessPriv r) kb nym) = Ok h ->
     Forall (skipsId C (boxseal C (jprint (headerToJson h)) (rNonce r) (dhpub C sb) (rHeaderPriv r)) (rNonce r) (dhpub C (rHeaderPriv r))) pre) ->
  mget (calcStateKey C (dhpub C sb) (dhpub C sa)) (states st2) = None ->
  mget (keHash (initDHKey C kb)) (privKEs st2) = Some (initDHKey C kb, kb) ->
  mget (sessKeyOf C (idHash C sb) (idHash C sa) (dhpub C kb) (dhpub C (rSessPriv r))) (sessions st2) = None ->
  1 <= numKeys (dNumKeys ra) ->
  exists sig v, run (receive C ra (wOut w')) st2 = (Ok (uIdentity (idUid (eFrom a)), sig), v) /\
    wOut v = (if eStatus a =? 0 then eContent a else []) /\ (sig = [] <-> eSigKey a = None).
Proof.
  intros C a r st nym w' ra i sa sb kb st2 pre post H FE W HD [ks HK] HPr HId HSk S2 K2 N2 Hn.
  pose proof (encState_first C a r (mkWorld st [] []) sa sb kb nym FE) as ES.
  assert (PKto : publicKey (eTo a) = Ok (dhpub C sb)).
  { destruct (fe_to _ _ _ _ _ _ _ _ FE) as [ks' T]. unfold publicKey. rewrite (pubKey_cons _ _ _ T). cbn [rbind initDHKey kePub].
    rewrite b64dec_enc by apply dhpub_wf. rewrite dhpub_len. reflexivity. }
  destruct (C02_decrypt_inverts_encrypt C a r st nym w' ra i sb st2 H) as (sig & v & R1 & R2 & R3 & _).
  - intros ss w1 E1. unfold run in E1. rewrite ES in E1. injection E1 as <- <-. exact W.
  - exact PKto.
  - intros ss w1 h sk mk w2 E1 HH EK. unfold run in E1. rewrite ES in E1. injection E1 as <- <-.
    pose proof (hdrOf_inv _ _ _ _ _ HH W) as (_ & U2 & U3 & U4 & U5 & U6 & _ & U8 & U9 & _).
    destruct (fe_from _ _ _ _ _ _ _ _ FE) as [ks1 F1]. destruct (fe_to _ _ _ _ _ _ _ _ FE) as [ks2 T1].
    rewrite (pubKey_cons _ _ _ F1) in U8. apply Ok_inj in U8.
    split.
    + exists pre, post, (initDHKey C sb). split; [exact HD|]. split.
      * split; [apply (pubKey_cons _ _ _ HK)|]. split; [apply initDHKey_pub32|]. unfold priv32. rewrite HPr. cbn [initDHKey keFunc]. now rewrite beq_refl.
      * apply HSk, HH.
    + assert (FD : firstDec C ra i (dhpub C (rHeaderPriv r)) h st2 sa (rSessPriv r) sb kb).
      { constructor; try assumption.
        - eexists; exact HK.
        - apply (fe_keys _ _ _ _ _ _ _ _ FE). }
      pose proof (decState_first C ra i _ h (mkWorld st2 [] []) sa (rSessPriv r) sb kb FD) as DS.
      eexists _, _, _, _, _. split; [exact DS|].
      set (fixE := identityFix C (uIdentity (idUid (eFrom a))) (uIdentity (eTo a))) in *.
      set (root := rootOf C sa (rSessPriv r) sb kb None) in *.
      rewrite (encKey_at C a (ssFirst C (rSessPriv r) kb nym) _ sa sb (rSessPriv r) kb (sessAfter C (rSessPriv r) kb fixE root (numKeys (eNumKeys a))) root
                 (N.to_nat (numKeys (eNumKeys a))) ks1 ks2 F1 T1 eq_refl eq_refl) in EK.
      * injection EK as _ <- _.
        rewrite (decKey_at C i _ h _ _ _ _ root (dhpub C kb) (dhpub C (rSessPriv r)) fixE (b64enc (sha512 C root)) (N.to_nat (numKeys (dNumKeys ra)))
                   (sessAfter C kb (rSessPriv r) fixE root (numKeys (dNumKeys ra)))).
        -- rewrite U2. reflexivity.
        -- unfold decFirstOps. cbn [steps fold_left step_op wStore]. cbn [apply_op addKey sessions].
           rewrite U3, HId. fold fixE. apply newSess_get. exact N2.
        -- apply sessAfter_ok.
        -- rewrite U2. cbn [ssFirst stMsgCount]. lia.
        -- rewrite U2. cbn [ssFirst stMsgCount sessAfter sRecv]. apply keysFor_ne. lia.
      * unfold encFirstOps. cbn [steps fold_left step_op wStore]. cbn [apply_op sessions]. fold fixE. fold root.
        change (sessions (apply_op (newSess C sa sb (rSessPriv r) kb fixE root (numKeys (eNumKeys a))) (apply_op (addKey C (rSessPriv r) (eCleanup a)) st)))
          with (sessions (apply_op (newSess C sa sb (rSessPriv r) kb fixE root (numKeys (eNumKeys a))) (apply_op (addKey C (rSessPriv r) (eCleanup a)) st))).
        apply newSess_get. cbn [addKey apply_op sessions]. apply (fe_new _ _ _ _ _ _ _ _ FE).
      * apply sessAfter_ok.
      * pose proof (fe_n _ _ _ _ _ _ _ _ FE). cbn [ssFirst stMsgCount]. lia.
      * pose proof (fe_n _ _ _ _ _ _ _ _ FE). cbn [ssFirst stMsgCount sessAfter sSend]. apply keysFor_ne. lia.
  - exists sig, v. auto.
Qed.

(* ------------------------------ C07 ------------------------------- *)
(* What may happen between the two presentations: any other message encrypted, any bytes offered for decryption,
   clean-up of session keys. *)
Inductive event := EvEncrypt (a : encArgs) (r : encRnd) | EvDecrypt (ra : decArgs) (msg : bytes) | EvCleanup (t : N).
Definition evStep (C : Crypto) (st : store) (e : event) : store :=
  match e with
  | EvEncrypt a r => wStore (snd (run (encrypt C a r) st))
  | EvDecrypt ra msg => wStore (snd (run (receive C ra msg) st))
  | EvCleanup t => cleanupSessionKeys t st
  end.
Definition slotUsed (sk : bytes) (i : N) (st : store) : Prop :=
  exists s, mget sk (sessions st) = Some s /\ (N.to_nat i < length (sRecv s))%nat /\ nthN i (sRecv s) = [].
Lemma slotUsed_apply sk i o st : slotUsed sk i st -> slotUsed sk i (apply_op o st).
Proof.
  intros (s & G & L & E). unfold slotUsed. destruct o; cbn [apply_op sessions]; try (exists s; auto; fail).
  - rewrite mget_mset. destruct (beq sk sk0) eqn:B; [|exists s; auto].
    apply beq_spec in B. subst sk0. rewrite G. eexists. split; [reflexivity|]. cbn [sRecv]. rewrite app_length. split; [lia|].
    rewrite nthN_to_nat in *. rewrite app_nth1 by lia. exact E.
  - destruct (mget hash (skeys st)); cbn [sessions]; exists s; auto.
  - destruct (mget sk0 (sessions st)) as [s0|] eqn:G0; [|exists s; auto]. cbn [sessions].
    rewrite mget_mset. destruct (beq sk sk0) eqn:B; [|exists s; auto].
    apply beq_spec in B. subst sk0. rewrite G in G0. injection G0 as <-. eexists. split; [reflexivity|].
    destruct sender; cbn [sRecv]; [auto|]. rewrite set_nth_length. split; [exact L|].
    rewrite nthN_to_nat in *. destruct (Nat.eq_dec (N.to_nat i) (N.to_nat i0)) as [Q|Q].
    + rewrite Q. apply nth_set_same. lia.
    + rewrite nth_set_other by exact Q. exact E.
Qed.
Lemma slotUsed_ops sk i l : forall w, slotUsed sk i (wStore w) -> slotUsed sk i (wStore (steps w l)).
Proof.
  induction l as [|o l IH]; intros w H; [exact H|]. cbn [steps fold_left]. apply IH. cbn [step_op wStore]. apply slotUsed_apply, H.
Qed.
Lemma slotUsed_traced {A} P (m : M A) sk i w : traced P m -> slotUsed sk i (wStore w) -> slotUsed sk i (wStore (snd (m w))).
Proof. intros T H. destruct (T w) as (l & -> & _). apply slotUsed_ops, H. Qed.
Definition anyOp (o : op) : Prop := True.
Lemma traced_del (P : op -> Prop) sk b i : P (ODelMsgKey sk b i) -> traced P (delMessageKey sk b i).
Proof.
  intros H. unfold delMessageKey. apply traced_bind; [apply traced_pure; reflexivity|]. intros n.
  apply traced_if; [apply traced_pure; reflexivity|apply traced_emit; exact H].
Qed.
Lemma traced_any {A} P (m : M A) : traced P m -> traced anyOp m.
Proof. apply traced_weaken. intros; exact I. Qed.
Lemma traced_encrypt C a r : traced anyOp (encrypt C a r).
Proof.
  unfold encrypt. apply traced_bind; [eapply traced_any, traced_encState|]. intros [nym ss].
  apply traced_bind; [apply traced_lift|]. intros hp. apply traced_bind; [eapply traced_any, traced_encKey|]. intros [sk mk]. cbv zeta.
  apply traced_if; [apply traced_pure; reflexivity|]. apply traced_bind; [apply traced_lift|]. intros body.
  apply traced_if; [apply traced_pure; reflexivity|]. apply traced_bind; [apply traced_emit; exact I|]. intros _.
  apply traced_bind; [apply traced_del; exact I|]. intros _. do 4 (apply traced_bind; [apply traced_lift|intros]).
  apply traced_bind; [apply traced_emit; exact I|]. intros. apply traced_pure; reflexivity.
Qed.
Lemma traced_decrypt C a pre s : traced anyOp (decrypt C a pre s).
Proof.
  unfold decrypt. apply traced_bind; [apply traced_lift|]. intros [[[hp i] h] s1].
  apply traced_bind; [eapply traced_any, traced_decState|]. intros [[ke sk] oss].
  apply traced_bind; [eapply traced_any, traced_decKey|]. intros mk.
  apply traced_bind; [apply traced_lift|]. intros [[[o2 o3] ih] s2].
  apply traced_bind; [apply traced_emit; exact I|]. intros _. apply traced_bind; [apply traced_lift|]. intros sig.
  apply traced_bind; [apply traced_del; exact I|]. intros _. apply traced_pure; reflexivity.
Qed.
Lemma traced_receive C a m : traced anyOp (receive C a m).
Proof.
  unfold receive. destruct (b64dec m); [|apply traced_pure; reflexivity]. apply traced_bind; [apply traced_lift|]. intros [[v pre] s].
  apply traced_if; [apply traced_pure; reflexivity|]. apply traced_decrypt.
Qed.
Lemma slotUsed_ev C sk i e st : slotUsed sk i st -> slotUsed sk i (evStep C st e).
Proof.
  intros H. destruct e; cbn [evStep]; unfold run.
  - apply (slotUsed_traced _ _ _ _ (mkWorld st [] []) (traced_encrypt C a r) H).
  - apply (slotUsed_traced _ _ _ _ (mkWorld st [] []) (traced_receive C ra msg) H).
  - exact H.
Qed.
Lemma slotUsed_get sk i st k : slotUsed sk i st -> getMessageKeyR sk false i st <> Ok k.
Proof.
  intros (s & G & L & E). unfold getMessageKeyR, memSession. rewrite G. cbn [rbind]. destruct (_ <=? _); [discriminate|].
  rewrite E. discriminate.
Qed.
Lemma decState_inv C a hp i h w ke sk oss w' : decState C a hp i h w = (Ok (ke, sk, oss), w') ->
  pubKey (idUid i) = Ok ke /\ sk = calcKey C (keHash ke) (keHash (hSenderPub h)) (hRecipTempHash h) (keHash (hSessPub h)).
Proof.
  unfold decState. intros H. apply mbind_ok in H as (k & w1 & E1 & H). unfold lift in E1. injection E1 as E1 <-.
  do 5 (apply mbind_ok in H as (? & ? & _ & H)). unfold mret in H. injection H as <- <- _ _. auto.
Qed.
Lemma decKey_get C i ke h sk oss nk w mk w' : decKey C i ke h sk oss nk w = (Ok mk, w') -> getMessageKeyR sk false (hMsgCount h) (wStore w') = Ok mk.
Proof.
  intros DK. unfold decKey in DK. apply mbind_ok in DK as (n & x & D1 & DK). apply mbind_ok in DK as (n2 & x2 & D2 & DK).
  unfold getMessageKey in DK. injection DK as DK <-. exact DK.
Qed.
(* After a successful decryption the same bytes, offered again at any later time, are rejected and release nothing. *)
Theorem C07_replay_rejected : forall C ra ra' msg st x w1 (between : list event),
  run (receive C ra msg) st = (Ok x, w1) -> dIds ra' = dIds ra ->
  let st2 := fold_left (evStep C) between (wStore w1) in
  (forall y w2, run (receive C ra' msg) st2 <> (Ok y, w2)) /\ wOut (snd (run (receive C ra' msg) st2)) = [].
Proof.
  intros C ra ra' msg st x w1 between H HD st2. unfold run in *.
  unfold receive in H. destruct (b64dec msg) as [raw|] eqn:B; [|discriminate].
  apply mbind_ok in H as ([[v pre] s] & v0 & E0 & H). unfold lift in E0. injection E0 as E0 <-.
  destruct (negb (v =? Version)) eqn:EV; [discriminate|].
  unfold decrypt in H. apply mbind_ok in H as ([[[hp i] h] s1] & v1 & E1 & H). unfold lift in E1. injection E1 as E1 <-.
  apply mbind_ok in H as ([[ke sk] oss] & v2 & E2 & H). apply mbind_ok in H as (mk & v3 & E3 & H).
  apply mbind_ok in H as ([[[o2 o3] ih] s2] & v4 & E4 & H). unfold lift in E4. injection E4 as E4 <-.
  apply mbind_ok in H as (u & v5 & E5 & H). rewrite emit_eq in E5. injection E5 as _ <-.
  apply mbind_ok in H as (sig & v6 & E6 & H). unfold lift in E6. injection E6 as E6 <-.
  apply mbind_ok in H as (u2 & v7 & E7 & H). apply delMessageKey_ok in E7. subst v7. unfold mret in H. injection H as <- <-.
  apply decState_inv in E2 as [PK SK]. pose proof (decKey_get _ _ _ _ _ _ _ _ _ _ E3) as GK.
  assert (U : slotUsed sk (hMsgCount h) st2).
  { assert (U0 : slotUsed sk (hMsgCount h) (wStore (step_op (step_op v3 (OOutput (iContent ih))) (ODelMsgKey sk false (hMsgCount h))))).
    { cbn [step_op wStore apply_op]. unfold getMessageKeyR, memSession in GK.
      destruct (mget sk (sessions (wStore v3))) as [se|] eqn:G; [|discriminate]. cbn [rbind] in GK.
      destruct (lenN (sSend se) <=? hMsgCount h); [discriminate|].
      destruct (beq (nthN (hMsgCount h) (sRecv se)) []) eqn:BE; [discriminate|].
      assert (LR : (N.to_nat (hMsgCount h) < length (sRecv se))%nat).
      { destruct (Nat.lt_ge_cases (N.to_nat (hMsgCount h)) (length (sRecv se))) as [L|L]; [exact L|].
        rewrite nthN_to_nat, nth_overflow in BE by exact L. rewrite beq_refl in BE. discriminate. }
      eexists. cbn [sessions]. rewrite mget_mset_same. split; [reflexivity|]. cbn [sRecv]. rewrite set_nth_length. split; [exact LR|].
      rewrite nthN_to_nat. apply nth_set_same. exact LR. }
    unfold st2. clear - U0. revert U0. generalize (wStore (step_op (step_op v3 (OOutput (iContent ih))) (ODelMsgKey sk false (hMsgCount h)))).
    induction between as [|e l IH]; intros s0 U0; [exact U0|]. cbn [fold_left]. apply IH, slotUsed_ev, U0. }
  assert (D : forall w res w2, wStore w = st2 -> wOut w = [] -> receive C ra' msg w = (res, w2) -> (forall y, res <> Ok y) /\ wOut w2 = []).
  { intros w res w2 Hs Ho. unfold receive. rewrite B, E0, lift_bind, EV. unfold decrypt. rewrite HD, E1, lift_bind.
    unfold mbind at 1. destruct (decState C ra' hp i h w) as [[[[ke' sk'] oss']|e|] x1] eqn:F1;
      pose proof (traced_out _ _ _ _ _ (traced_decState C ra' hp i h) F1 decOp_out) as O1.
    - pose proof (decState_inv _ _ _ _ _ _ _ _ _ _ F1) as [PK' SK']. rewrite PK in PK'. apply Ok_inj in PK'. subst ke'.
      rewrite <- SK in SK'. subst sk'.
      unfold mbind at 1. destruct (decKey C i ke h sk oss' (numKeys (dNumKeys ra')) x1) as [[mk'|e|] x2] eqn:F2;
        pose proof (traced_out _ _ _ _ _ (traced_decKey C i ke h sk oss' (numKeys (dNumKeys ra'))) F2 keyOp_out) as O2.
      + exfalso. eapply slotUsed_get; [|eapply decKey_get; exact F2].
        pose proof (slotUsed_traced _ _ sk (hMsgCount h) x1 (traced_decKey C i ke h sk oss' (numKeys (dNumKeys ra')))) as T2. rewrite F2 in T2. apply T2.
        pose proof (slotUsed_traced _ _ sk (hMsgCount h) w (traced_decState C ra' hp i h)) as T1. rewrite F1 in T1. apply T1.
        rewrite Hs. exact U.
      + intros R. cbv beta iota in R. injection R as <- <-. split; [discriminate|congruence].
      + intros R. cbv beta iota in R. injection R as <- <-. split; [discriminate|congruence].
    - intros R. cbv beta iota in R. injection R as <- <-. split; [discriminate|congruence].
    - intros R. cbv beta iota in R. injection R as <- <-. split; [discriminate|congruence]. }
  destruct (receive C ra' msg (mkWorld st2 [] [])) as [res w2] eqn:R. destruct (D (mkWorld st2 [] []) _ _ eq_refl eq_refl R) as [D1 D2].
  split; [|exact D2]. intros y w3 Q. apply (D1 y). congruence.
Qed.

(* ------------------------------ C09 ------------------------------- *)
Lemma generate_any C a b c d root rk p q n w : exists sk rh ck send recv,
  generateMessageKeys C a b c d root rk p q n w = (Ok tt, step_op w (OStoreSession sk rh ck send recv)) /\ lenN send = n /\ lenN recv = n.
Proof.
  unfold generateMessageKeys. rewrite keyLoop_spec. destruct rk; unfold storeSession; rewrite !lenN_keysFor, N.eqb_refl; cbn [negb];
    eexists _, _, _, _, _; (split; [reflexivity|]); rewrite !lenN_keysFor; auto.
Qed.
(* what decKey does to the trace *)
Lemma decKey_trace C i ke h sk oss nk w res w' s : mget sk (sessions (wStore w)) = Some s ->
  decKey C i ke h sk oss nk w = (res, w') ->
  (wTrace w' = wTrace w /\ ((lenN (sSend s) <= hMsgCount h -> forall k, res <> Ok k))) \/
  (lenN (sSend s) <= hMsgCount h /\ refillCount (hMsgCount h) nk <= 301 /\
   exists sk' rh ck send recv, wTrace w' = wTrace w ++ [OStoreSession sk' rh ck send recv] /\
     lenN send = refillCount (hMsgCount h) nk /\ lenN recv = refillCount (hMsgCount h) nk).
Proof.
  intros G. unfold decKey. erewrite bind_ok by (apply numMessageKeys_get; exact G). cbv beta zeta.
  destruct (N.leb_spec (lenN (sSend s)) (hMsgCount h)) as [L|L].
  2:{ erewrite bind_ok by reflexivity. unfold getMessageKey. intros H. injection H as <- <-. left. split; [reflexivity|lia]. }
  intros H.
  match type of H with mbind ?m ?f w = _ => assert (Q : exists r w1, m w = (r, w1) /\
    ((w1 = w /\ r <> Ok tt) \/
    (refillCount (hMsgCount h) nk <= 301 /\ r = Ok tt /\ exists sk' rh ck send recv, w1 = step_op w (OStoreSession sk' rh ck send recv) /\
      lenN send = refillCount (hMsgCount h) nk /\ lenN recv = refillCount (hMsgCount h) nk))) end.
  { unfold mbind at 1. unfold getChainKey at 1.
    destruct (do s <- memSession sk (wStore w); _) as [ck|e|]; [|eexists _, _; split; [reflexivity|left; split; [reflexivity|discriminate]]..].
    change refillLimit with 301.
    destruct (N.ltb_spec 301 (refillCount (hMsgCount h) nk)) as [X|X]; [eexists _, _; split; [reflexivity|left; split; [reflexivity|discriminate]]|].
    destruct oss as [ss|]; [|eexists _, _; split; [reflexivity|left; split; [reflexivity|discriminate]]].
    unfold mbind at 1.
    match goal with |- context [match ?m w with _ => _ end] => assert (P : exists r, m w = (r, w)) end.
    { destruct (beq (hRecipTempHash h) (keHash (stSenderPub ss))); [eexists; reflexivity|].
      unfold mbind at 1, getPrivateKeyEntry, ask. destruct (mget (hRecipTempHash h) (privKEs (wStore w))) as [[ki p]|]; [eexists; reflexivity|].
      unfold mbind at 1. destruct (getSessionKey (hRecipTempHash h) w) as [r w1] eqn:E1.
      assert (w1 = w).
      { revert E1. unfold getSessionKey, mbind, ask, lift, fail, mret.
        repeat match goal with |- context [match ?x with _ => _ end] => destruct x end; intros E1; now injection E1. }
      subst w1. destruct r as [[ke' p]|e|]; eexists; reflexivity. }
    destruct P as [r ->]. destruct r as [rp|e|]; [|eexists _, _; split; [reflexivity|left; split; [reflexivity|discriminate]]..].
    unfold mbind at 1, lift at 1. destruct (pub32 (hSessPub h)) as [sp|e|]; [|eexists _, _; split; [reflexivity|left; split; [reflexivity|discriminate]]..].
    destruct (generate_any C (hSender h) (uIdentity (idUid i)) (keHash (hSenderPub h)) (keHash ke) ck true sp rp (refillCount (hMsgCount h) nk) w)
      as (sk' & rh & ck' & send & recv & E & E1 & E2).
    eexists _, _. split; [exact E|]. right. split; [exact X|]. split; [reflexivity|].
    exists sk', rh, ck', send, recv. auto. }
  destruct Q as (r & w1 & Q & [(-> & NQ)|(X & -> & sk' & rh & ck & send & recv & -> & L1 & L2)]).
  - left. unfold mbind at 1 in H. rewrite Q in H. destruct r as [[]|e|]; [contradiction| |]; injection H as <- <-; (split; [reflexivity|intros; discriminate]).
  - right. split; [exact L|]. split; [exact X|]. erewrite bind_ok in H by exact Q. unfold getMessageKey in H. injection H as <- <-.
    exists sk', rh, ck, send, recv. auto.
Qed.
Lemma refillCount_nowrap count nk : 1 <= nk -> count + nk <= 2 ^ 64 -> count <= refillCount count nk /\ refillCount count nk < count + nk.
Proof.
  intros Hn Hc. unfold refillCount, u64. pose proof (N.div_mod count nk ltac:(lia)) as D. pose proof (N.mod_lt count nk ltac:(lia)) as M.
  destruct (N.ltb_spec 0 (count mod nk)) as [P|P].
  - assert (E : (count / nk + 1) * nk = count + (nk - count mod nk)) by nia. rewrite E, N.mod_small by lia. lia.
  - assert (E : (count / nk + 0) * nk = count) by nia. rewrite E, N.mod_small by lia. lia.
Qed.
(* Without overflow of the counter: an announced number beyond the stored keys is either refused before any key is
   derived, or the derived keys reach past it and there are at most 301 of them; beyond 301 it is always refused. *)
Theorem C09_refill_partial : forall C i ke h sk oss nk w res w' s,
  1 <= nk -> hMsgCount h + nk <= 2 ^ 64 -> mget sk (sessions (wStore w)) = Some s -> 1 <= lenN (sSend s) ->
  decKey C i ke h sk oss nk w = (res, w') ->
  (exists l, wTrace w' = wTrace w ++ l /\
     (l = [] \/ exists sk' rh ck send recv, l = [OStoreSession sk' rh ck send recv] /\
        hMsgCount h + 1 <= lenN (sSend s) + lenN send /\ lenN send <= 301 /\ lenN recv = lenN send)) /\
  (301 < hMsgCount h -> lenN (sSend s) <= hMsgCount h -> wTrace w' = wTrace w /\ forall k, res <> Ok k).
Proof.
  intros C i ke h sk oss nk w res w' s Hn Hc G Hs H.
  destruct (refillCount_nowrap _ _ Hn Hc) as [R1 R2].
  destruct (decKey_trace _ _ _ _ _ _ _ _ _ _ _ G H) as [[T F]|(L & X & sk' & rh & ck & send & recv & T & L1 & L2)].
  - split; [|auto]. exists []. rewrite app_nil_r. auto.
  - split; [|lia]. eexists. split; [exact T|]. right. exists sk', rh, ck, send, recv. split; [reflexivity|]. lia.
Qed.
(* In every case at most 301 keys are derived for one message. *)
Theorem C09_bounded : forall C i ke h sk oss nk w res w' s, mget sk (sessions (wStore w)) = Some s ->
  decKey C i ke h sk oss nk w = (res, w') ->
  wTrace w' = wTrace w \/ exists sk' rh ck send recv, wTrace w' = wTrace w ++ [OStoreSession sk' rh ck send recv] /\ lenN send <= 301 /\ lenN recv <= 301.
Proof.
  intros C i ke h sk oss nk w res w' s G H.
  destruct (decKey_trace _ _ _ _ _ _ _ _ _ _ _ G H) as [[T F]|(L & X & sk' & rh & ck & send & recv & T & L1 & L2)]; [auto|].
  right. exists sk', rh, ck, send, recv. split; [exact T|]. lia.
Qed.

(* An overflowing announcement: keys are derived, but they do not reach the announced number. *)
Lemma decKey_short C i ke h sk ss nk w s ck rp sp :
  mget sk (sessions (wStore w)) = Some s ->
  decode_fixed 32 "memstore: cannot decode chain key" "memstore: chain key has wrong length" (sChain s) = Ok ck ->
  refillCount (hMsgCount h) nk <= 301 -> lenN (sSend s) + refillCount (hMsgCount h) nk <= hMsgCount h ->
  hRecipTempHash h = keHash (stSenderPub ss) -> pub32 (stSenderPub ss) = Ok rp -> pub32 (hSessPub h) = Ok sp ->
  exists w' sk' rh ck send recv, decKey C i ke h sk (Some ss) nk w = (Err "memstore: message index out of bounds", w') /\
    wTrace w' = wTrace w ++ [OStoreSession sk' rh ck send recv] /\ lenN send = refillCount (hMsgCount h) nk.
Proof.
  intros G K R L E1 E2 E3. unfold decKey. erewrite bind_ok by (apply numMessageKeys_get; exact G). cbv beta zeta.
  rewrite (proj2 (N.leb_le _ _)) by lia.
  match goal with |- context [mbind ?m (fun _ => getMessageKey sk false (hMsgCount h)) w] =>
    assert (Q : exists sk' rh ck send recv, m w = (Ok tt, step_op w (OStoreSession sk' rh ck send recv)) /\
      lenN send = refillCount (hMsgCount h) nk) end.
  { unfold mbind at 1. unfold getChainKey at 1. unfold memSession at 1. rewrite G. cbn [rbind]. rewrite K.
    unfold refillLimit at 1. rewrite (proj2 (N.ltb_ge _ _)) by exact R.
    rewrite E1, beq_refl, E2, lift_bind, E3, lift_bind.
    destruct (generate_any C (hSender h) (uIdentity (idUid i)) (keHash (hSenderPub h)) (keHash ke) ck true sp rp (refillCount (hMsgCount h) nk) w)
      as (sk' & rh & ck' & send & recv & E & F1 & F2).
    exists sk', rh, ck', send, recv. split; [exact E|exact F1]. }
  destruct Q as (sk' & rh & ck' & send & recv & Q & F1).
  erewrite bind_ok by exact Q. unfold getMessageKey. exists (step_op w (OStoreSession sk' rh ck' send recv)), sk', rh, ck', send, recv.
  split; [|split; [reflexivity|exact F1]]. f_equal.
  unfold getMessageKeyR, memSession. cbn [step_op wStore apply_op sessions].
  assert (LS : exists s', mget sk (mset sk' match mget sk' (sessions (wStore w)) with
              | None => mkSess rh ck' send recv
              | Some s => mkSess (sRoot s) ck' (sSend s ++ send) (sRecv s ++ recv)
              end (sessions (wStore w))) = Some s' /\ lenN (sSend s') <= hMsgCount h).
  { rewrite mget_mset. destruct (beq sk sk') eqn:B.
    - apply beq_spec in B as <-. rewrite G. eexists. split; [reflexivity|]. cbn [sSend]. rewrite lenN_app. lia.
    - exists s. split; [exact G|lia]. }
  destruct LS as (s' & -> & LS). cbn [rbind]. rewrite (proj2 (N.leb_le _ _)) by exact LS. reflexivity.
Qed.

(* With the default of 50 keys and the announced number 2^64-1 the rounding overflows: 34 keys are derived and stored
   although the number is absurd, and they do not reach it. *)
Definition c9Sess : sess := sessAfter toy (hxKey 6) (hxKey 7) [] (hxKey 1) 1.
Definition c9Ident : ident := mkIdent hxTo (Some (hxKey 5)) None.
Definition c9Header (n : N) : header :=
  mkHeader DefaultCiphersuite [] (keHash (initDHKey toy (hxKey 6))) (str "alice@mute.berlin") (initDHKey toy (hxKey 7)) []
    (initDHKey toy (hxKey 2)) None None [] 0 0 n [] [] 0 [].
Definition c9State : state := mkState 0 0 0 (initDHKey toy (hxKey 7)) (initDHKey toy (hxKey 6)) None None [] false.
Definition c9World : world := mkWorld (mkStore [] [] [] [([1], c9Sess)] []) [] [].
(* the hypotheses of C09_refill_partial hold here; with one stored key, message number 7 makes it derive keys *)
Example C09_ex : 1 <= 50 /\ hMsgCount (c9Header 7) + 50 <= 2 ^ 64 /\ mget [1] (sessions (wStore c9World)) = Some c9Sess /\ 1 <= lenN (sSend c9Sess) /\
  refillCount (hMsgCount (c9Header 7)) 50 = 50.
Proof.
  split; [lia|]. split; [vm_compute; discriminate|]. split; [reflexivity|]. split; [|vm_compute; reflexivity].
  unfold c9Sess; cbn [sessAfter sSend]. rewrite lenN_keysFor. lia.
Qed.
Theorem C09_refuted : exists C i ke h sk oss w s, 301 < hMsgCount h /\ hMsgCount h < 2 ^ 64 /\ mget sk (sessions (wStore w)) = Some s /\ lenN (sSend s) = 1 /\
  exists e w' sk' rh ck send recv, decKey C i ke h sk oss 50 w = (Err e, w') /\
    wTrace w' = wTrace w ++ [OStoreSession sk' rh ck send recv] /\ lenN send = 34 /\ lenN (sSend s) + lenN send < hMsgCount h + 1.
Proof.
  exists toy, c9Ident, (initDHKey toy (hxKey 5)), (c9Header 18446744073709551615), [1], (Some c9State), c9World, c9Sess.
  assert (R : refillCount (hMsgCount (c9Header 18446744073709551615)) 50 = 34) by (vm_compute; reflexivity).
  assert (LS : lenN (sSend c9Sess) = 1) by (unfold c9Sess; cbn [sessAfter sSend]; apply lenN_keysFor).
  split; [vm_compute; reflexivity|]. split; [vm_compute; reflexivity|]. split; [reflexivity|]. split; [exact LS|].
  destruct (decKey_short toy c9Ident (initDHKey toy (hxKey 5)) (c9Header 18446744073709551615) [1] c9State 50 c9World c9Sess
    (chainAt toy (hxKey 1) 1) (dhpub toy (hxKey 6)) (dhpub toy (hxKey 7))) as (w' & sk' & rh & ck & send & recv & E & T & L).
  - reflexivity.
  - unfold c9Sess. cbn [sessAfter sChain]. apply decode_fixed_enc; [apply nextChain_wf|apply nextChain_len].
  - rewrite R. lia.
  - rewrite LS, R. vm_compute. discriminate.
  - reflexivity.
  - apply initDHKey_pub32.
  - apply initDHKey_pub32.
  - eexists _, w', sk', rh, ck, send, recv. split; [exact E|]. split; [exact T|]. split; [rewrite L; exact R|].
    rewrite L, LS, R. vm_compute. reflexivity.
Qed.

Print Assumptions C01_fixed_size.
Print Assumptions C01_never_fails_on_size.
Print Assumptions C01_longer_refused.
Print Assumptions C02_decrypt_inverts_encrypt.
Print Assumptions C02_first_message.
Print Assumptions C07_replay_rejected.
Print Assumptions C09_refill_partial.
Print Assumptions C09_bounded.
Print Assumptions C09_refuted.
