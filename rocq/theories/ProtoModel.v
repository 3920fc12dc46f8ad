(* msg/encrypt.go:Encrypt and msg/decrypt.go:Decrypt.
   Simplifications: the random readers deliver what is asked for (their output is the
   record [encRnd] / the two arguments of Decrypt); writing to args.Writer and reading
   from args.Reader does not fail; times.Now()+CleanupTime is an argument; log output is
   left out.  Order of all store operations and of the output is as in the code. *)
From Verif Require Import Base Base64Model CodecModel JsonModel Maps CryptoModel StoreModel KeysModel MsgFormatModel HeaderModel.
Local Open Scope N_scope.

(* msg/msg.go:15-34 *)
Definition NumOfFutureKeys : N := 50.
Definition EncodedMsgSize : N := 65536.
Definition UnencodedMsgSize : N := EncodedMsgSize / 4 * 3.
Definition MaxContentLength : N :=
  UnencodedMsgSize - preHeaderSize - encryptedHeaderSize - cryptoSetupSize - encryptedPacketSize - signatureSize
  - innerHeaderSize - hmacSize.
(* msg/mime/mime.go:26 MaxMsgSize *)
Definition mimeMaxMsgSize : N := 10485760.
Definition u64 (n : N) : N := n mod 2 ^ 64.

Section Proto.
Variable C : Crypto.

(* randomness of one Encrypt call: header key, session key, coin of line 202 (n == 0), header padding,
   nonce, iv, body padding *)
Record encRnd := mkRnd { rHeaderPriv : bytes; rSessPriv : bytes; rCoin : bool; rHdrPad : bytes; rNonce : bytes; rIv : bytes; rPad : bytes }.
(* msg/encrypt.go:89-102 without writer, random source and key store *)
Record encArgs := mkEnc {
  eFrom : ident; eTo : uidMsg; eNym : bytes; eKeychain : bytes; eSigKey : option bytes; eContent : bytes;
  eNumKeys : N; eStatus : N; eCleanup : N }.
Definition numKeys (n : N) : N := if n =? 0 then NumOfFutureKeys else n.

(* msg/encrypt.go:142-214; result: nym address and session state *)
Definition encState (a : encArgs) (r : encRnd) : M (bytes * state) :=
  let from := idUid (eFrom a) in
  let to := eTo a in
  dom fromKE <- lift (pubKey from);
  dom fromPub <- lift (pub32 fromKE);
  dom toKE <- lift (pubKey to);
  dom toPub <- lift (pub32 toKE);
  let key := calcStateKey C fromPub toPub in
  dom oss <- (if eStatus a =? StatusReset then mret None else getSessionState key);
  match oss with
  | None =>
    dom (recipientTemp, nym) <- getPublicKeyEntry (uIdentity to);
    let senderSession := initDHKey C (rSessPriv r) in
    dom _ <- addSessionKey senderSession (rSessPriv r) (eCleanup a);
    dom fromPriv <- lift (priv32 fromKE (idEncPriv (eFrom a)));
    dom _ <- rootKeyAgreementSender C (dhpub C (rHeaderPriv r)) (uIdentity from) (uIdentity to) senderSession (rSessPriv r)
               fromKE fromPriv recipientTemp toKE None (numKeys (eNumKeys a));
    let ss := mkState 0 0 0 recipientTemp senderSession None None nym true in
    dom _ <- emit (OSetState key ss);
    mret (nym, ss)
  | Some ss =>
    if eStatus a =? StatusError then mret ([], ss)
    else
      match stNextSender ss with
      | None =>
        if rCoin r then
          dom (_, ss') <- setNextSenderSessionPub C ss key (rSessPriv r) (eCleanup a);
          mret (stNym ss, ss')
        else mret (stNym ss, ss)
      | Some _ => mret (stNym ss, ss)
      end
  end.

(* msg/encrypt.go:262-293; result: session key, message key *)
Definition encKey (a : encArgs) (ss : state) : M (bytes * bytes) :=
  let from := idUid (eFrom a) in
  let to := eTo a in
  dom fromKE <- lift (pubKey from);
  dom toKE <- lift (pubKey to);
  let sk := calcKey C (keHash fromKE) (keHash toKE) (keHash (stSenderPub ss)) (keHash (stRecipTemp ss)) in
  dom n <- numMessageKeys sk;
  dom _ <- (if n <=? stMsgCount ss then
              dom chainKey <- getChainKey sk;
              dom sp <- lift (pub32 (stSenderPub ss));
              dom rp <- lift (pub32 (stRecipTemp ss));
              generateMessageKeys C (uIdentity from) (uIdentity to) (keHash fromKE) (keHash toKE) chainKey false sp rp (numKeys (eNumKeys a))
            else mret tt);
  dom mk <- getMessageKey sk true (stMsgCount ss);
  mret (sk, mk).

(* msg/encrypt.go:217-260: header and header packet *)
Definition encHeader (a : encArgs) (r : encRnd) (ss : state) : res bytes :=
  do h <- newHeader C (idUid (eFrom a)) (eTo a) (keHash (stRecipTemp ss)) (stSenderPub ss) (stNextSender ss) (stNextSeen ss)
            (eNym a) (stSessCount ss) (stMsgCount ss) (eKeychain a) (rHdrPad r) (eStatus a);
  do rpub <- publicKey (eTo a);
  headerPacket C h rpub (rHeaderPriv r) (rNonce r).

(* msg/encrypt.go:320-416: the packets that depend on the message key *)
Definition sealBody (mk iv content : bytes) (sigKey : option bytes) (pad : bytes) : res bytes :=
  let '(cryptoKey, hmacKey) := deriveSymmetricKeys C mk in
  let setup := outer_write (newOuterHeader cryptoSetup 2 iv) true in
  let ih := newInnerHeader (match sigKey with Some _ => dataSignType | None => dataType end) false content in
  let plain1 := inner_write ih in
  do plain2 <- match sigKey with
               | Some k =>
                 let sig := edsign C k (sha512 C content) in
                 do p <- padGen C (Z.of_N MaxContentLength - Z.of_N (lenN content)) pad;
                 Ok (inner_write (newInnerHeader signatureType true sig) ++ inner_write (newInnerHeader paddingType false p))
               | None =>
                 do p <- padGen C (Z.of_N MaxContentLength + Z.of_N signatureSize - Z.of_N encryptedPacketSize + Z.of_N innerHeaderSize
                                 - Z.of_N (lenN content)) pad;
                 Ok (inner_write (newInnerHeader paddingType false p))
               end;
  let ks := ctr C cryptoKey iv (lenN plain1 + lenN plain2) in
  let enc1 := outer_write (newOuterHeader encryptedPacket 3 (xorb plain1 (takeN (lenN plain1) ks))) true in
  let enc2 := outer_write (newOuterHeader encryptedPacket 4 (xorb plain2 (dropN (lenN plain1) ks))) true in
  let hh := mkOuter hmacPacket 64 5 [] in
  let mac := hmac512 C hmacKey (setup ++ enc1 ++ enc2 ++ outer_write hh false) in
  Ok (setup ++ enc1 ++ enc2 ++ outer_write (mkOuter hmacPacket 64 5 mac) true).

(* msg/encrypt.go:106-441 *)
Definition encrypt (a : encArgs) (r : encRnd) : M bytes :=
  dom (nym, ss) <- encState a r;
  dom hp <- lift (encHeader a r ss);
  dom (sk, mk) <- encKey a ss;
  let content := if eStatus a =? StatusOK then eContent a else [] in
  if MaxContentLength <? lenN content then fail "len(content) > MaxContentLength"
  else
    dom body <- lift (sealBody mk (rIv r) content (eSigKey a) (rPad r));
    let pre := outer_write (newOuterHeader preHeaderPacket 0 (preheader_write (newPreHeader (dhpub C (rHeaderPriv r))))) true in
    let out := b64enc (pre ++ outer_write (newOuterHeader encryptedHeader 1 hp) true ++ body) in
    if negb (lenN out =? EncodedMsgSize) then fail "out.Len() != EncodedMsgSize"
    else
      dom _ <- emit (OOutput out);
      dom _ <- delMessageKey sk true (stMsgCount ss);
      dom fromKE <- lift (pubKey (idUid (eFrom a)));
      dom fromPub <- lift (pub32 fromKE);
      dom toKE <- lift (pubKey (eTo a));
      dom toPub <- lift (pub32 toKE);
      dom _ <- emit (OSetState (calcStateKey C fromPub toPub)
                 (mkState (stSessCount ss) (u64 (stMsgCount ss + 1)) (stMaxRecv ss) (stRecipTemp ss) (stSenderPub ss)
                          (stNextSender ss) (stNextSeen ss) (stNym ss) (stKeyInit ss)));
      mret nym.

(* ---- Decrypt ---- *)
(* randomness of one Decrypt call: the private session key that may be generated; the clean-up time *)
Definition packet (ty cnt : N) (e : String.string) (s : bytes) : res (outer * bytes) :=
  do (o, s) <- readOuterHeader s;
  if negb (oType o =? ty) then Err e
  else if negb (oCount o =? cnt) then Err "msg: wrong count"
  else Ok (o, s).
Arguments packet ty cnt e%string s.

(* msg/decrypt.go:110-138: header public key, identity, header, rest *)
Definition decHeader (ids : list ident) (preHeader s : bytes) : res (bytes * ident * header * bytes) :=
  do (ph, _) <- readPreHeader preHeader;
  if negb (pLenPub ph =? 32) then Err "msg: ph.LengthSenderHeaderPub != 32"
  else
    do (o, s) <- packet encryptedHeader 1 "msg: not an encrypted header" s;
    do (i, h) <- readHeader C (pPub ph) ids (oInner o);
    Ok (pPub ph, i, h, s).

Definition switched (ss : state) (recipTemp senderPub : keyEntry) (nym : bytes) : state :=
  mkState (u64 (stSessCount ss + stMsgCount ss)) 0 0 recipTemp senderPub None None nym false.
Definition isHash (h : bytes) (o : option keyEntry) : bool := match o with Some k => beq (keHash k) h | None => false end.

(* msg/decrypt.go:172-236: session unknown.  A nil [ss] afterwards makes NumMessageKeys fail. *)
Definition decUnknown (hp : bytes) (i : ident) (recipKE : keyEntry) (h : header) (key sk : bytes) (oss : option state)
    (nk : N) (priv : bytes) (cleanup : N) : M (option state) :=
  let sender := hSender h in
  let recipient := uIdentity (idUid i) in
  dom oki <- getPrivateKeyEntry (hRecipTempHash h);
  match oki with
  | None => mret oss
  | Some (ki, kiPriv) =>
    dom recipPriv <- lift (priv32 recipKE (idEncPriv i));
    dom _ <- rootKeyAgreementRecipient C hp sender recipient (hSessPub h) (hSenderPub h) ki kiPriv recipKE recipPriv None nk;
    if match oss with None => true | Some ss => stKeyInit ss && bltb sender recipient end then
      let next := initDHKey C priv in
      dom _ <- addSessionKey next priv cleanup;
      dom _ <- match hNext h with
               | None => mret tt
               | Some hn =>
                 dom prev <- getRootKeyHash sk;
                 rootKeyAgreementSender C hp recipient sender next priv recipKE recipPriv hn (hSenderPub h) (Some prev) nk
               end;
      let ss := mkState 0 0 0 (hSessPub h) ki (Some next) (hNext h) (hNym h) false in
      dom _ <- emit (OSetState key ss);
      mret (Some ss)
    else mret oss
  end.

(* msg/decrypt.go:237-345: session known; a nil session state is dereferenced *)
Definition decKnown (hp : bytes) (i : ident) (recipKE : keyEntry) (h : header) (key sk : bytes) (oss : option state)
    (nk : N) (priv : bytes) (cleanup : N) : M (option state) :=
  let sender := hSender h in
  let recipient := uIdentity (idUid i) in
  match oss with
  | None => lift Panic
  | Some ss =>
    dom ss <-
      (if beq (hRecipTempHash h) (keHash (stSenderPub ss)) && beq (keHash (hSessPub h)) (keHash (stRecipTemp ss)) then
         match hNext h with
         | None => mret ss
         | Some hn =>
           match stNextSender ss with
           | None =>
             dom (next, ss) <- setNextSenderSessionPub C ss key priv cleanup;
             dom prev <- getRootKeyHash sk;
             dom recipPriv <- lift (priv32 recipKE (idEncPriv i));
             dom _ <- rootKeyAgreementSender C hp recipient sender next priv recipKE recipPriv hn (hSenderPub h) (Some prev) nk;
             match stNextSeen ss with
             | None =>
               let ss' := mkState (stSessCount ss) (stMsgCount ss) (stMaxRecv ss) (stRecipTemp ss) (stSenderPub ss)
                            (stNextSender ss) (Some hn) (stNym ss) (stKeyInit ss) in
               dom _ <- emit (OSetState key ss');
               mret ss'
             | Some _ => mret ss
             end
           | Some own =>
             if isHash (keHash own) (hSeen h) then
               dom (next, onextPriv) <- getSessionKey (keHash own);
               dom prev <- getRootKeyHash sk;
               dom recipPriv <- lift (priv32 recipKE (idEncPriv i));
               dom nextPriv <- lift (priv32 next onextPriv);
               dom _ <- rootKeyAgreementRecipient C hp sender recipient hn (hSenderPub h) next nextPriv recipKE recipPriv (Some prev) nk;
               let ss' := switched ss hn next (hNym h) in
               dom _ <- emit (OSetState key ss');
               mret ss'
             else mret ss
           end
         end
       else
         match stNextSender ss with
         | Some own =>
           if isHash (hRecipTempHash h) (Some own) && isHash (keHash (hSessPub h)) (stNextSeen ss) then
             let ss' := switched ss (hSessPub h) own (hNym h) in
             dom _ <- emit (OSetState key ss');
             mret ss'
           else mret ss
         | None => mret ss
         end);
    dom _ <- emit (ODelPriv (hRecipTempHash h));
    mret (Some ss)
  end.

(* msg/decrypt.go:361-369 in uint64 arithmetic *)
Definition refillCount (count nk : N) : N :=
  u64 ((count / nk + (if 0 <? count mod nk then 1 else 0)) * nk).
Definition refillLimit : N := mimeMaxMsgSize / MaxContentLength + NumOfFutureKeys.

(* msg/decrypt.go:347-405 *)
Definition decKey (i : ident) (recipKE : keyEntry) (h : header) (sk : bytes) (oss : option state) (nk : N) : M bytes :=
  let sender := hSender h in
  let recipient := uIdentity (idUid i) in
  dom n <- numMessageKeys sk;
  dom _ <- (if n <=? hMsgCount h then
              dom chainKey <- getChainKey sk;
              let cnt := refillCount (hMsgCount h) nk in
              if refillLimit <? cnt then fail "msg: requested number of message keys too large"
              else
                match oss with
                | None => lift Panic
                | Some ss =>
                  dom rp <-
                    (if beq (hRecipTempHash h) (keHash (stSenderPub ss)) then lift (pub32 (stSenderPub ss))
                     else
                       dom oki <- getPrivateKeyEntry (hRecipTempHash h);
                       match oki with
                       | Some (ki, _) => lift (pub32 ki)
                       | None => dom (ke, _) <- getSessionKey (hRecipTempHash h); lift (pub32 ke)
                       end);
                  dom sp <- lift (pub32 (hSessPub h));
                  generateMessageKeys C sender recipient (keHash (hSenderPub h)) (keHash recipKE) chainKey true sp rp cnt
                end
            else mret tt);
  getMessageKey sk false (hMsgCount h).

(* msg/decrypt.go:407-463: crypto setup packet, first encrypted packet, its inner header *)
Definition openContent (mk s : bytes) : res (outer * outer * inner * bytes) :=
  let '(cryptoKey, _) := deriveSymmetricKeys C mk in
  do (o2, s) <- packet cryptoSetup 2 "msg: not a crypto setup packet" s;
  if negb (oPLen o2 =? 16) then Err "msg: wrong crypto setup"
  else
    do (o3, s) <- packet encryptedPacket 3 "msg: not an encrypted packet" s;
    do (ih, _) <- readInnerHeader (xorb (oInner o3) (ctr C cryptoKey (oInner o2) (lenN (oInner o3))));
    if N.land (iType ih) dataType =? 0 then Err "msg: not data"
    else Ok (o2, o3, ih, s).

(* msg/decrypt.go:473-573: second packet, sender UID, signature, HMAC; result: signature in base64 or "" *)
Definition openRest (mk senderUID : bytes) (o2 o3 : outer) (ih : inner) (s : bytes) : res bytes :=
  let '(cryptoKey, hmacKey) := deriveSymmetricKeys C mk in
  let signed := negb (N.land (iType ih) signType =? 0) in
  do (o4, s) <- packet encryptedPacket 4 "msg: not an encrypted packet" s;
  let l3 := lenN (oInner o3) in
  let ks := dropN l3 (ctr C cryptoKey (oInner o2) (l3 + lenN (oInner o4))) in
  do (ih2, _) <- readInnerHeader (xorb (oInner o4) ks);
  do _ <- (if signed then
             if N.land (iType ih2) signatureType =? 0 then Err "msg: not a signature packet"
             else if negb (lenN (iContent ih2) =? 64) then Err "msg: wrong signature length"
             else Ok tt
           else if N.land (iType ih2) paddingType =? 0 then Err "msg: not a padding packet" else Ok tt);
  do u <- newJSONUid senderUID;
  do sig <- (if signed then
               do sp <- pub32 (uSigKey u);
               if edverify C sp (sha512 C (iContent ih)) (iContent ih2) then Ok (b64enc (iContent ih2)) else Err "msg: invalid signature"
             else Ok []);
  do (o5, _) <- packet hmacPacket 5 "msg: not an HMAC packet" s;
  let mac := hmac512 C hmacKey (outer_write o2 true ++ outer_write o3 true ++ outer_write o4 true ++ outer_write o5 false) in
  if beq mac (oInner o5) then Ok sig else Err "msg: HMACs differ".

Record decArgs := mkDec { dIds : list ident; dNumKeys : N; dPriv : bytes; dCleanup : N }.
(* msg/decrypt.go:155-345 *)
Definition decState (a : decArgs) (hp : bytes) (i : ident) (h : header) : M (keyEntry * bytes * option state) :=
  dom recipKE <- lift (pubKey (idUid i));
  dom rp <- lift (pub32 recipKE);
  dom sp <- lift (pub32 (hSenderPub h));
  let key := calcStateKey C rp sp in
  dom oss <- getSessionState key;
  let sk := calcKey C (keHash recipKE) (keHash (hSenderPub h)) (hRecipTempHash h) (keHash (hSessPub h)) in
  dom known <- hasSession sk;
  dom oss <- (if known then decKnown hp i recipKE h key sk oss (numKeys (dNumKeys a)) (dPriv a) (dCleanup a)
              else decUnknown hp i recipKE h key sk oss (numKeys (dNumKeys a)) (dPriv a) (dCleanup a));
  mret (recipKE, sk, oss).
(* msg/decrypt.go:102-582; result: sender identity and signature.  The content goes to the output before
   signature and HMAC are checked (line 464). *)
Definition decrypt (a : decArgs) (preHeader s : bytes) : M (bytes * bytes) :=
  dom (hp, i, h, s) <- lift (decHeader (dIds a) preHeader s);
  dom (recipKE, sk, oss) <- decState a hp i h;
  dom mk <- decKey i recipKE h sk oss (numKeys (dNumKeys a));
  dom (o2, o3, ih, s) <- lift (openContent mk s);
  dom _ <- emit (OOutput (iContent ih));
  dom sig <- lift (openRest mk (hUID h) o2 o3 ih s);
  dom _ <- delMessageKey sk false (hMsgCount h);
  mret (hSender h, sig).
(* ReadFirstOuterHeader (msg/first.go:22-56) on the base64-decoded message, then Decrypt, as in
   cryptengine/decrypt.go:39-82.  Simplification: the base64 decoder is applied to the whole message first;
   in the code it runs while reading. *)
Definition receive (a : decArgs) (msg : bytes) : M (bytes * bytes) :=
  match b64dec msg with
  | None => fail "base64"
  | Some raw =>
    dom (v, pre, s) <- lift (ReadFirstOuterHeader raw);
    if negb (v =? Version) then fail "cryptengine: invalid message version" else decrypt a pre s
  end.
Definition run {A} (m : M A) (st : store) : res A * world := m (mkWorld st [] []).
End Proto.
