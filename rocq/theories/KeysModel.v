(* Key agreement and message keys: msg/keys.go, msg/session.go, uid/keyentry.go,
   cipher/curve25519.go:68-94 and the two rootKeyAgreement functions. *)
From Verif Require Import Base Base64Model CodecModel JsonModel Maps CryptoModel StoreModel.
Local Open Scope N_scope.

Section Keys.
Variable C : Crypto.

(* uid/keyentry.go:26 *)
Definition DefaultCiphersuite : bytes := str "NACL HKDF AES256-CTR SHA512-HMAC ED25519 ECDHE25519".
Definition fECDHE : bytes := str "ECDHE25519".
Definition fED25519 : bytes := str "ED25519".

(* uid/keyentry.go:98-111 InitDHKey; the private key is the randomness read *)
Definition initDHKey (priv : bytes) : keyEntry :=
  mkKE DefaultCiphersuite fECDHE (b64enc (sha512 C (dhpub C priv))) (b64enc (dhpub C priv)).
(* uid/keyentry.go:146-174 PublicKey32: a key of the wrong length leaves a nil pointer behind, which panics when used.  Simplified:
   if FUNCTION is ED25519 the code gives 32 zero bytes for it instead; the cache and this are in KeyEntryModel, see C204_refines *)
Definition pub32 (ke : keyEntry) : res bytes :=
  match b64dec (kePub ke) with
  | None => Panic
  | Some pk =>
    if beq (keFunc ke) fECDHE || beq (keFunc ke) fED25519
    then (if lenN pk =? 32 then Ok pk else Panic)
    else Panic
  end.
(* uid/keyentry.go:62-92 Verify *)
Definition keVerify (ke : keyEntry) : res unit :=
  if negb (beq (keSuite ke) DefaultCiphersuite) then Err "uid: unknown ke.CIPHERSUITE"
  else if negb (beq (keFunc ke) (str "ED25510")) && negb (beq (keFunc ke) fECDHE) then Err "uid: unknown ke.FUNCTION"
  else match b64dec (keHash ke) with
  | None => Err "uid: ke.HASH is not parseable"
  | Some h =>
    if negb (lenN h =? 64) then Err "uid: parsed ke.HASH has wrong length"
    else match b64dec (kePub ke) with
    | None => Err "uid: ke.PUBKEY is not parseable"
    | Some pk =>
      if negb (lenN pk =? 32) then Err "uid: ke.PUBKEY has wrong length"
      else if negb (beq (sha512 C pk) h) then Err "uid: SHA512(ke.PUBKEY) != ke.HASH"
      else Ok tt
    end
  end.
(* uid/keyentry.go:141-143 JSON via marshalSorted (uid/uid.go:406-417): keys in sorted order *)
Definition keToJson (ke : keyEntry) : json :=
  JObj [(str "CIPHERSUITE", JStr (keSuite ke)); (str "FUNCTION", JStr (keFunc ke));
        (str "HASH", JStr (keHash ke)); (str "PUBKEY", JStr (kePub ke))].
Definition keJSON (ke : keyEntry) : bytes := jprint (keToJson ke).
(* json.Unmarshal into uid.KeyEntry; null and a missing member leave the zero value *)
Definition keZero : keyEntry := mkKE [] [] [] [].
Definition keOfJson (v : json) : option keyEntry :=
  match v with
  | JNull => Some keZero
  | JObj l =>
    match dec_str (jfield (str "CIPHERSUITE") l), dec_str (jfield (str "FUNCTION") l),
          dec_str (jfield (str "HASH") l), dec_str (jfield (str "PUBKEY") l) with
    | Some a, Some b, Some c, Some d => Some (mkKE a b c d)
    | _, _, _, _ => None
    end
  | _ => None
  end.
(* uid/keyentry.go:132-138 NewJSONKeyEntry *)
Definition newJSONKeyEntry (s : bytes) : res keyEntry :=
  match jparse s with
  | None => Err "json"
  | Some v => match keOfJson v with Some ke => Ok ke | None => Err "json: cannot unmarshal" end
  end.

(* msg/keys.go:21-53; ErrReflection *)
Definition checkKeys (kh k1 k2 k3 k4 : bytes) : res unit :=
  if beq kh k1 then Err "msg: reflection attack detected"
  else if beq kh k2 then Err "msg: reflection attack detected"
  else if beq kh k3 then Err "msg: reflection attack detected"
  else if beq kh k4 then Err "msg: reflection attack detected"
  else if beq k1 k2 then Err "msg: reflection attack detected"
  else if beq k1 k3 then Err "msg: reflection attack detected"
  else if beq k1 k4 then Err "msg: reflection attack detected"
  else if beq k2 k3 then Err "msg: reflection attack detected"
  else if beq k2 k4 then Err "msg: reflection attack detected"
  else if beq k3 k4 then Err "msg: reflection attack detected"
  else Ok tt.

(* cipher/curve25519.go:68-94 with ownPublicKey given *)
Definition ecdh (priv peersPub ownPub : bytes) : res bytes :=
  if beq ownPub peersPub then Err "cipher: curve25519.ECDH(): publicKey == peersPublicKey"
  else Ok (dh C priv peersPub).

(* msg/keys.go:57-78 *)
Definition zeros (n : nat) : bytes := repeat 0 n.
Definition deriveRootKey (t1 t2 t3 : bytes) (previousRootKeyHash : option bytes) : bytes :=
  hkdf512 C (t1 ++ t2 ++ t3 ++ match previousRootKeyHash with Some h => h | None => zeros 64 end) 32.

(* msg/keys.go:101-107 *)
Definition identityFix (senderIdentity recipientIdentity : bytes) : bytes :=
  sha512 C (if bltb senderIdentity recipientIdentity then senderIdentity ++ recipientIdentity
            else recipientIdentity ++ senderIdentity).
(* msg/keys.go:114-116, 119-121: one message key *)
Definition msgKeyText (ck pub fix_ : bytes) : bytes :=
  b64enc (hmac512 C ck (str "MESSAGE" ++ sha512 C pub ++ fix_)).
(* msg/keys.go:124 *)
Definition nextChain (ck : bytes) : bytes := takeN 32 (hmac512 C ck (str "CHAIN")).
(* msg/keys.go:111-125 *)
Fixpoint keyLoop (n : nat) (ck recipientPub senderPub fix_ : bytes) : list bytes * list bytes * bytes :=
  match n with
  | O => ([], [], ck)
  | S n' =>
    let s := msgKeyText ck recipientPub fix_ in
    let r := msgKeyText ck senderPub fix_ in
    let '(ss, rs, ck') := keyLoop n' (nextChain ck) recipientPub senderPub fix_ in
    (s :: ss, r :: rs, ck')
  end.
(* msg/session/session.go:116-119 *)
Definition calcStateKey (a b : bytes) : bytes := b64enc (sha512 C (a ++ b)).
(* msg/session/session.go:123-132 *)
Definition calcKey (idA idB sessA sessB : bytes) : bytes := b64enc (sha512 C (idA ++ idB ++ sessA ++ sessB)).
Definition hashText (pub : bytes) : bytes := b64enc (sha512 C pub).

(* msg/keys.go:86-158.  Line 129 wipes rootKey, and chainKey still aliases it when
   no key was generated, so the stored chain key is then all zeros. *)
Definition generateMessageKeys (senderIdentity recipientIdentity senderIdHash recipientIdHash rootKey : bytes)
    (recipientKeys : bool) (senderSessionPub recipientPub : bytes) (numOfKeys : N) : M unit :=
  let fix_ := identityFix senderIdentity recipientIdentity in
  let '(send, recv, ck) := keyLoop (N.to_nat numOfKeys) rootKey recipientPub senderSessionPub fix_ in
  let rootKeyHash := b64enc (sha512 C rootKey) in
  let ck := if numOfKeys =? 0 then zeros 32 else ck in
  let '(send, recv) := if recipientKeys then (recv, send) else (send, recv) in
  let sk := if recipientKeys
            then calcKey recipientIdHash senderIdHash (hashText recipientPub) (hashText senderSessionPub)
            else calcKey senderIdHash recipientIdHash (hashText senderSessionPub) (hashText recipientPub) in
  storeSession sk rootKeyHash (b64enc ck) send recv.

(* msg/keys.go:162-181 *)
Definition deriveSymmetricKeys (messageKey : bytes) : bytes * bytes :=
  let k := hkdf512 C messageKey 64 in (takeN 32 k, dropN 32 k).

(* msg/encrypt.go:27-86; key entries with their private parts where the function uses them *)
Definition rootKeyAgreementSender (senderHeaderPub senderIdentity recipientIdentity : bytes)
    (senderSession : keyEntry) (senderSessionPriv : bytes) (senderID : keyEntry) (senderIDPriv : bytes)
    (recipientKI recipientID : keyEntry) (previousRootKeyHash : option bytes) (numOfKeys : N) : M unit :=
  dom senderIdentityPub <- lift (pub32 senderID);
  dom senderSessionPub <- lift (pub32 senderSession);
  dom recipientIdentityPub <- lift (pub32 recipientID);
  dom recipientKeyInitPub <- lift (pub32 recipientKI);
  dom _ <- lift (checkKeys senderHeaderPub senderIdentityPub senderSessionPub recipientIdentityPub recipientKeyInitPub);
  dom t1 <- lift (ecdh senderIDPriv recipientKeyInitPub senderIdentityPub);
  dom t2 <- lift (ecdh senderSessionPriv recipientKeyInitPub senderSessionPub);
  dom t3 <- lift (ecdh senderSessionPriv recipientIdentityPub senderSessionPub);
  generateMessageKeys senderIdentity recipientIdentity (keHash senderID) (keHash recipientID)
    (deriveRootKey t1 t2 t3 previousRootKeyHash) false senderSessionPub recipientKeyInitPub numOfKeys.

(* msg/decrypt.go:24-84 *)
Definition rootKeyAgreementRecipient (senderHeaderPub senderIdentity recipientIdentity : bytes)
    (senderSession senderID recipientKI : keyEntry) (recipientKIPriv : bytes) (recipientID : keyEntry)
    (recipientIDPriv : bytes) (previousRootKeyHash : option bytes) (numOfKeys : N) : M unit :=
  dom recipientIdentityPub <- lift (pub32 recipientID);
  dom recipientKeyInitPub <- lift (pub32 recipientKI);
  dom senderSessionPub <- lift (pub32 senderSession);
  dom senderIdentityPub <- lift (pub32 senderID);
  dom _ <- lift (checkKeys senderHeaderPub senderIdentityPub senderSessionPub recipientIdentityPub recipientKeyInitPub);
  dom t1 <- lift (ecdh recipientKIPriv senderIdentityPub recipientKeyInitPub);
  dom t2 <- lift (ecdh recipientKIPriv senderSessionPub recipientKeyInitPub);
  dom t3 <- lift (ecdh recipientIDPriv senderSessionPub recipientIdentityPub);
  generateMessageKeys senderIdentity recipientIdentity (keHash senderID) (keHash recipientID)
    (deriveRootKey t1 t2 t3 previousRootKeyHash) true senderSessionPub recipientKeyInitPub numOfKeys.

(* msg/encrypt.go:266-292: more keys for the session [sk], from the sender's side *)
Definition refillSender (sk own peer ownIdHash peerIdHash ownPub peerPub : bytes) (n : N) : M unit :=
  dom chainKey <- getChainKey sk;
  generateMessageKeys own peer ownIdHash peerIdHash chainKey false ownPub peerPub n.
(* msg/decrypt.go:372-397: the same from the recipient's side *)
Definition refillRecipient (sk own peer ownIdHash peerIdHash ownPub peerPub : bytes) (n : N) : M unit :=
  dom chainKey <- getChainKey sk;
  generateMessageKeys peer own peerIdHash ownIdHash chainKey true peerPub ownPub n.

(* msg/session.go:15-18; [cleanup] is now + CleanupTime *)
Definition addSessionKey (ke : keyEntry) (priv : bytes) (cleanup : N) : M unit :=
  emit (OAddSessionKey (keHash ke) (keJSON ke) (b64enc priv) cleanup).
(* msg/session.go:20-35 with uid/keyentry.go:218-249 setPrivateKey, SetPrivateKey; None = private key not set *)
Definition getSessionKey (hash : bytes) : M (keyEntry * option bytes) :=
  dom o <- ask (fun st => mget hash (skeys st));
  match o with
  | None => fail "session: no key entry found"
  | Some k =>
    dom ke <- lift (newJSONKeyEntry (skJson k));
    if beq (skPriv k) [] then mret (ke, None)
    else match b64dec (skPriv k) with
    | None => fail "base64"
    | Some p =>
      if beq (keFunc ke) fECDHE || beq (keFunc ke) fED25519 then
        (if lenN p =? (if beq (keFunc ke) fECDHE then 32 else 64) then mret (ke, Some p) else fail "cipher: SetPrivateKey")
      else fail "uid: unknown FUNCTION in KeyEntry"
    end
  end.
(* msg/session.go:37-59 *)
Definition setNextSenderSessionPub (ss : state) (key priv : bytes) (cleanup : N) : M (keyEntry * state) :=
  let ke := initDHKey priv in
  dom _ <- addSessionKey ke priv cleanup;
  let ss' := mkState (stSessCount ss) (stMsgCount ss) (stMaxRecv ss) (stRecipTemp ss) (stSenderPub ss)
                     (Some ke) (stNextSeen ss) (stNym ss) (stKeyInit ss) in
  dom _ <- emit (OSetState key ss');
  mret (ke, ss').
End Keys.
