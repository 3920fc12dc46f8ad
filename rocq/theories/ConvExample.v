(* Concrete conversations between alice (true) and bob (false) with the instance [toyI]. *)
From Verif Require Import Base Base64Model Base64Proofs CodecModel CodecProofs JsonModel JsonProofs Maps CryptoModel StoreModel KeysModel KeysProofs MsgFormatModel MsgFormatProofs HeaderModel HeaderProofs PropsHeader ProtoModel ProtoProofs ProtoFirst ConvModel ConvSteps ConvInv ConvProofs ConvSend ConvRecv ConvMain ConvEnabled ConvTrack ConvToy.
Local Open Scope N_scope.

(* messages delivered in the order in which they were sent, none lost, all decrypted *)
Inductive stepOrd (C : Crypto) (P : bool -> party) : conv -> conv -> Prop :=
| SoSend p a r c nym w :
    sendOk C P p a r -> numOf C P p a (cStore c p) + 1 < 2 ^ 63 -> fresh C [rHeaderPriv r; rSessPriv r] (cUsed c) ->
    run (encrypt C a r) (cStore c p) = (Ok nym, w) ->
    stepOrd C P c (mkConv (upd (cStore c) p (wStore w)) (upd (cNet c) p (cNet c p ++ [mkSent a (sessOf C P p (wStore w)) (numOf C P p a (cStore c p)) (wOut w)]))
                   (rHeaderPriv r :: rSessPriv r :: cUsed c))
| SoRecv p ra c m l x w :
    cNet c (negb p) = m :: l -> recvOk C P p ra -> fresh C [dPriv ra] (cUsed c) ->
    run (receive C ra (sWire m)) (cStore c p) = (Ok x, w) ->
    stepOrd C P c (mkConv (upd (cStore c) p (wStore w)) (upd (cNet c) (negb p) l) (dPriv ra :: cUsed c)).
Inductive orderly (C : Crypto) (P : bool -> party) (c0 : conv) : conv -> Prop :=
| OrdStart : start C P c0 -> orderly C P c0 c0
| OrdStep c c' : orderly C P c0 c -> stepOrd C P c c' -> orderly C P c0 c'.
Lemma orderly_reach C P c0 c : orderly C P c0 c -> reach C P c0 c.
Proof.
  intros R. induction R as [S|c c' R IH S]; [now constructor|]. eapply RStep; [exact IH|]. destruct S.
  - eapply StSend; eassumption.
  - eapply (StRecv C P p ra c [] m l); try eassumption. now left.
Qed.

(* ---- the two parties: keys 1 and 2, published KeyInit keys 3 and 4 ---- *)
Definition cxSec (p : bool) : bytes := keyN (if p then 1 else 2).
Definition cxKI (p : bool) : bytes := keyN (if p then 3 else 4).
Definition cxName (p : bool) : bytes := if p then str "alice@mute.berlin" else str "bob@mute.berlin".
Definition cxP (p : bool) : party := mkParty (cxName p) (cxSec p) [cxKI p].
Definition cxSig (n : N) : keyEntry :=
  mkKE DefaultCiphersuite fED25519 (b64enc (sha512 toyI (edpub toyI (keyN n)))) (b64enc (edpub toyI (keyN n))).
Definition cxUid (p : bool) : uidMsg :=
  mkUid (str "1.0") 0 1479254400 0 [] [] (cxName p) (cxSig 5) [initDHKey toyI (cxSec p)]
    None (repeat 65 204) [str "mute.berlin"] (str "strict") [DefaultCiphersuite] None [] [] (repeat 66 88) [].
Definition cxId (p : bool) : ident := mkIdent (cxUid p) (Some (cxSec p)) None.
Definition cxArgs (p : bool) (content : bytes) (status : N) : encArgs :=
  mkEnc (cxId p) (cxUid (negb p)) (str "nymaddress") (repeat 67 204) None content 0 status 0.
(* random choices: header key h, session key s *)
Definition cxRnd (h s : N) (coin : bool) : encRnd := mkRnd (keyN h) (keyN s) coin (repeat 7 32) (repeat 1 24) (repeat 2 16) (repeat 8 32).
Definition cxRa (p : bool) (z : N) : decArgs := mkDec [cxId p] 0 (keyN z) 0.
Definition cxStore (p : bool) : store :=
  mkStore [(hashText toyI (dhpub toyI (cxKI p)), (initDHKey toyI (cxKI p), cxKI p))]
          [(cxName (negb p), (initDHKey toyI (cxKI (negb p)), str "nymaddress"))] [] [] [].
Definition cxStart : conv := mkConv cxStore (fun _ => []) [keyN 1; keyN 2; keyN 3; keyN 4].

Lemma keys_fresh l : NoDup l -> Forall (fun n => n < 2 ^ 50) l -> NoDup (map (dhpub toyI) (map keyN l)).
Proof.
  intros N F. induction N as [|n l N1 N2 IH]; [constructor|]. inversion F as [|? ? F1 F2]; subst. cbn [map]. constructor; [|auto].
  intros Q. apply N1. apply in_map_iff in Q as (k & E & Q). apply in_map_iff in Q as (m & <- & Q). rewrite Forall_forall in F2.
  apply keyN_inj in E; [now subst|auto|exact F1].
Qed.
Lemma cx_keyNs : knownKeys cxP = map keyN [1; 2; 3; 4].
Proof. reflexivity. Qed.
Lemma mget_one {A} (k k' : bytes) (a b : A) : mget k [(k', a)] = Some b -> k = k' /\ a = b.
Proof.
  cbn [mget]. destruct (beq k k') eqn:E.
  - intros Q. apply beq_spec in E. injection Q. auto.
  - discriminate.
Qed.
Lemma cx_start : start toyI cxP cxStart.
Proof.
  constructor; cbn [cxStart cUsed cNet cStore].
  - rewrite cx_keyNs. reflexivity.
  - unfold fresh. cbn [app]. rewrite cx_keyNs. apply keys_fresh; [|repeat constructor; lia].
    repeat (constructor; [cbn [In]; intros Q; repeat (destruct Q as [Q|Q]; [discriminate|]); exact Q|]). constructor.
  - reflexivity.
  - reflexivity.
  - reflexivity.
  - intros p kb Q. cbn [cxP pKIs] in Q. destruct Q as [<-|[]]. unfold cxStore. cbn [privKEs]. cbn [mget]. rewrite beq_refl. reflexivity.
  - intros p h v Q. unfold cxStore in Q. cbn [privKEs] in Q. apply mget_one in Q as [-> _]. exists (cxKI p). split; [now left|reflexivity].
  - intros p k nym Q. unfold cxStore in Q. cbn [pubKEs] in Q. apply mget_one in Q as [_ Q]. injection Q as <- _. exists (cxKI (negb p)). split; [now left|reflexivity].
Qed.
Lemma cx_ident p : isIdent toyI (cxP p) (cxId p).
Proof. split; [split; [reflexivity|exists []; reflexivity]|reflexivity]. Qed.
Lemma cx_sendOk p content status h s coin : wfb content -> status < 256 -> sendOk toyI cxP p (cxArgs p content status) (cxRnd h s coin).
Proof.
  intros W L. constructor; cbn [cxArgs cxRnd eFrom eTo eNym eKeychain eContent eStatus eSigKey rNonce rIv rPad rHdrPad rSessPriv cxId idUid].
  - apply cx_ident.
  - split; [reflexivity|exists []; reflexivity].
  - cbn [cxUid uMsgCount uNotAfter uNotBefore]. lia.
  - apply wfbb_spec. destruct p; vm_compute; reflexivity.
  - apply wfbb_spec. destruct p; reflexivity.
  - apply wfbb_spec. reflexivity.
  - apply wfbb_spec. reflexivity.
  - exact W.
  - exact L.
  - discriminate.
  - split; [reflexivity|apply wfbb_spec; reflexivity].
  - split; [reflexivity|apply wfbb_spec; reflexivity].
  - apply wfbb_spec. reflexivity.
  - apply wfbb_spec. reflexivity.
  - apply keyN_ok.
Qed.
Lemma cx_writable p content status h s coin : lenN content <= 41691 -> status < 10 -> writable toyI (cxArgs p content status) (cxRnd h s coin).
Proof.
  intros W L. constructor; cbn [cxArgs cxRnd eFrom eTo eNym eKeychain eContent eStatus rPad rHdrPad cxId idUid].
  - unfold createdUid. split; [repeat (apply Forall_cons; [apply unescaped_dec; destruct p; reflexivity|]); apply Forall_nil|].
    split; [exists (keyN 5); reflexivity|].
    split; [exists (initDHKey toyI (cxSec p)); split; [reflexivity|exists (cxSec p); reflexivity]|].
    split; [exists (str "mute.berlin"); split; [reflexivity|apply unescaped_dec; reflexivity]|].
    split; [exists DefaultCiphersuite; split; [reflexivity|apply unescaped_dec; reflexivity]|].
    split; reflexivity.
  - apply unescaped_dec. reflexivity.
  - split; [apply unescaped_dec; reflexivity|reflexivity].
  - split; [destruct p; vm_compute; discriminate|]. split; [vm_compute; discriminate|]. destruct p; vm_compute; discriminate.
  - exact L.
  - exact W.
  - split; reflexivity.
Qed.
Lemma cx_recvOk p z : recvOk toyI cxP p (cxRa p z).
Proof.
  constructor; cbn [cxRa dIds dPriv dNumKeys].
  - exists [], (cxId p), []. split; [reflexivity|]. split; [apply cx_ident|constructor].
  - apply keyN_ok.
  - reflexivity.
Qed.
