(* Encrypt and Decrypt on the key store that the program uses: cryptengine/keystore.go on top of the key database
   (package keydb).  StoreModel and ProtoModel describe the same calls on the in-memory store of the tests
   (msg/session/memstore).

   msg.Encrypt and msg.Decrypt use the store through the interface session.Store (msg/session/session.go:28-113) only.  They
   are written here once more, over a record [kstore] of the interface's methods and an arbitrary type of worlds; [memKS] and
   [dbKS] are the two implementations.  With [memKS] the functions are those of ProtoModel ([encryptG_mem], [receiveG_mem],
   proved by computation).
   Simplifications: the key entries of KeyInit messages (GetPrivateKeyEntry and GetPublicKeyEntry, keystore.go:59-106, which
   look up and decrypt KeyInit messages) are two maps, as in the in-memory store; errors are those of KeyDBModel; the
   database is used by one connection per call or by one connection for several calls ([newConn] between them or not). *)
From Verif Require Import Base Base64Model CodecModel JsonModel Maps CryptoModel StoreModel KeysModel MsgFormatModel HeaderModel ProtoModel SqlModel KeyDBModel.
Local Open Scope N_scope.

Definition G (W A : Type) := W -> res A * W.
Definition gret {W A} (a : A) : G W A := fun w => (Ok a, w).
Definition gbind {W A B} (m : G W A) (f : A -> G W B) : G W B :=
  fun w => match m w with
           | (Ok a, w') => f a w'
           | (Err e, w') => (Err e, w')
           | (Panic, w') => (Panic, w')
           end.
Notation "'gdo' x <- m ; k" := (gbind m (fun x => k))
  (at level 200, x pattern, m at level 100, k at level 200, right associativity).
Definition glift {W A} (r : res A) : G W A := fun w => (r, w).
Definition gfail {W A} (e : String.string) : G W A := fun w => (Err e, w).
Arguments gfail {W A} e%string w.

(* msg/session/session.go:28-113 without CleanupSessionKeys, which Encrypt and Decrypt do not call; the writer *)
Record kstore (W : Type) := mkKS {
  ksGetState : bytes -> G W (option state);
  ksSetState : bytes -> state -> G W unit;
  ksStoreSession : bytes -> bytes -> bytes -> list bytes -> list bytes -> G W unit;
  ksHasSession : bytes -> G W bool;
  ksPrivKE : bytes -> G W (option (keyEntry * bytes));
  ksPubKE : bytes -> G W (keyEntry * bytes);
  ksMsgKey : bytes -> bool -> N -> G W bytes;
  ksNum : bytes -> G W N;
  ksRoot : bytes -> G W bytes;
  ksChain : bytes -> G W bytes;
  ksDelMsgKey : bytes -> bool -> N -> G W unit;
  ksAddSKey : bytes -> bytes -> bytes -> N -> G W unit;
  ksGetSKey : bytes -> G W (option skey);      (* the clean-up time is not part of the answer *)
  ksDelPriv : bytes -> G W unit;
  ksOut : bytes -> G W unit }.
Arguments ksGetState {W}. Arguments ksSetState {W}. Arguments ksStoreSession {W}. Arguments ksHasSession {W}. Arguments ksPrivKE {W}.
Arguments ksPubKE {W}. Arguments ksMsgKey {W}. Arguments ksNum {W}. Arguments ksRoot {W}. Arguments ksChain {W}. Arguments ksDelMsgKey {W}.
Arguments ksAddSKey {W}. Arguments ksGetSKey {W}. Arguments ksDelPriv {W}. Arguments ksOut {W}.

(* msg/session/memstore/memstore.go, as in StoreModel *)
Definition memKS : kstore world := {|
  ksGetState := getSessionState;
  ksSetState k s := emit (OSetState k s);
  ksStoreSession := storeSession;
  ksHasSession := hasSession;
  ksPrivKE := getPrivateKeyEntry;
  ksPubKE := getPublicKeyEntry;
  ksMsgKey := getMessageKey;
  ksNum := numMessageKeys;
  ksRoot := getRootKeyHash;
  ksChain := getChainKey;
  ksDelMsgKey := delMessageKey;
  ksAddSKey h j p c := emit (OAddSessionKey h j p c);
  ksGetSKey h := ask (fun st => mget h (skeys st));
  ksDelPriv h := emit (ODelPriv h);
  ksOut b := emit (OOutput b) |}.

(* The world of a call in the program: key entries of KeyInit messages, key database, bytes written so far. *)
Record dbw := mkDBW { bPriv : map_ (keyEntry * bytes); bPub : map_ (keyEntry * bytes); bDB : keydb; bOut : bytes }.
Definition rd {A} (f : keydb -> res A) : G dbw A := fun w => (f (bDB w), w).
Definition wr (f : keydb -> res keydb) : G dbw unit :=
  fun w => match f (bDB w) with
           | Ok d => (Ok tt, mkDBW (bPriv w) (bPub w) d (bOut w))
           | Err e => (Err e, w)
           | Panic => (Panic, w)
           end.
(* keydb/session.go:96-112 *)
Definition dbSessionR (sk : bytes) (d : keydb) : res (bytes * bytes * N) :=
  match dbSession sk d with Some x => Ok x | None => Err "sql: no rows in result set" end.
(* cryptengine/keystore.go:46-56 (the only error of GetSession in KeyDBModel is ErrNoRows) *)
Definition ceHasSession (sk : bytes) (d : keydb) : res bool := match dbSession sk d with Some _ => Ok true | None => Ok false end.
(* cryptengine/keystore.go:109-130 *)
Definition ceMsgKey (sk : bytes) (sender : bool) (i : N) (d : keydb) : res bytes :=
  do key <- dbMessageKey sk sender i d;
  decode_fixed 64 "cryptengine: cannot decode key" "cryptengine: key has wrong length" key.
(* cryptengine/keystore.go:133-139 *)
Definition ceNum (sk : bytes) (d : keydb) : res N := do x <- dbSessionR sk d; Ok (snd x).
(* cryptengine/keystore.go:142-157 *)
Definition ceRoot (sk : bytes) (d : keydb) : res bytes :=
  do x <- dbSessionR sk d;
  decode_fixed 64 "cryptengine: cannot decode root key hash" "cryptengine: root key hash has wrong length" (fst (fst x)).
(* cryptengine/keystore.go:160-175 *)
Definition ceChain (sk : bytes) (d : keydb) : res bytes :=
  do x <- dbSessionR sk d;
  decode_fixed 32 "cryptengine: cannot decode chain key" "cryptengine: chain key has wrong length" (snd (fst x)).
(* cryptengine/keystore.go:195-207; None is session.ErrNoKeyEntry *)
Definition ceGetSKey (h : bytes) (d : keydb) : res (option skey) :=
  if beq h [] then Err "keydb: hash must be defined"
  else match dbGetSessionKey h d with
  | Ok (j, p) => Ok (Some (mkSKey j p 0))
  | _ => Ok None
  end.
(* cryptengine/keystore.go:18-212 *)
Definition dbKS : kstore dbw := {|
  ksGetState k := rd (dbGetState k);
  ksSetState k s := wr (dbSetState k s);
  ksStoreSession sk rh ck send recv := wr (addSession sk rh ck send recv);
  ksHasSession sk := rd (ceHasSession sk);
  ksPrivKE h := fun w => (Ok (mget h (bPriv w)), w);
  ksPubKE id := fun w => (match mget id (bPub w) with Some p => Ok p | None => Err "session: no key entry found" end, w);
  ksMsgKey sk sender i := rd (ceMsgKey sk sender i);
  ksNum sk := rd (ceNum sk);
  ksRoot sk := rd (ceRoot sk);
  ksChain sk := rd (ceChain sk);
  ksDelMsgKey sk sender i := wr (dbDelMessageKey sk sender i);
  ksAddSKey h j p c := wr (dbAddSessionKey h j p c);
  ksGetSKey h := rd (ceGetSKey h);
  ksDelPriv h := wr (dbDelPriv h);
  ksOut b := fun w => (Ok tt, mkDBW (bPriv w) (bPub w) (bDB w) (bOut w ++ b)) |}.
(* cryptengine/keystore.go:215-217 CleanupSessionKeys: util.ErrNotImplemented *)
Definition dbCleanupSessionKeys (t : N) : G dbw unit := gfail "util: not implemented".
(* memstore.go:278-289 *)
Definition memCleanupSessionKeys (t : N) : G world unit := fun w => (Ok tt, mkWorld (cleanupSessionKeys t (wStore w)) (wOut w) (wTrace w)).
(* mutecrypt is started for every message (ctrlengine/msg.go:66, 660): a new connection, an empty output *)
Definition newConn (w : dbw) : dbw := mkDBW (bPriv w) (bPub w) (setLast 0 (bDB w)) [].

Section Generic.
Variable C : Crypto.
Variable W : Type.
Variable K : kstore W.

(* msg/keys.go:86-158 *)
Definition generateMessageKeysG (senderIdentity recipientIdentity senderIdHash recipientIdHash rootKey : bytes)
    (recipientKeys : bool) (senderSessionPub recipientPub : bytes) (numOfKeys : N) : G W unit :=
  let fix_ := identityFix C senderIdentity recipientIdentity in
  let '(send, recv, ck) := keyLoop C (N.to_nat numOfKeys) rootKey recipientPub senderSessionPub fix_ in
  let rootKeyHash := b64enc (sha512 C rootKey) in
  let ck := if numOfKeys =? 0 then zeros 32 else ck in
  let '(send, recv) := if recipientKeys then (recv, send) else (send, recv) in
  let sk := if recipientKeys
            then calcKey C recipientIdHash senderIdHash (hashText C recipientPub) (hashText C senderSessionPub)
            else calcKey C senderIdHash recipientIdHash (hashText C senderSessionPub) (hashText C recipientPub) in
  ksStoreSession K sk rootKeyHash (b64enc ck) send recv.
(* msg/encrypt.go:27-86 *)
Definition rootKeyAgreementSenderG (senderHeaderPub senderIdentity recipientIdentity : bytes)
    (senderSession : keyEntry) (senderSessionPriv : bytes) (senderID : keyEntry) (senderIDPriv : bytes)
    (recipientKI recipientID : keyEntry) (previousRootKeyHash : option bytes) (numOfKeys : N) : G W unit :=
  gdo senderIdentityPub <- glift (pub32 senderID);
  gdo senderSessionPub <- glift (pub32 senderSession);
  gdo recipientIdentityPub <- glift (pub32 recipientID);
  gdo recipientKeyInitPub <- glift (pub32 recipientKI);
  gdo _ <- glift (checkKeys senderHeaderPub senderIdentityPub senderSessionPub recipientIdentityPub recipientKeyInitPub);
  gdo t1 <- glift (ecdh C senderIDPriv recipientKeyInitPub senderIdentityPub);
  gdo t2 <- glift (ecdh C senderSessionPriv recipientKeyInitPub senderSessionPub);
  gdo t3 <- glift (ecdh C senderSessionPriv recipientIdentityPub senderSessionPub);
  generateMessageKeysG senderIdentity recipientIdentity (keHash senderID) (keHash recipientID)
    (deriveRootKey C t1 t2 t3 previousRootKeyHash) false senderSessionPub recipientKeyInitPub numOfKeys.
(* msg/decrypt.go:24-84 *)
Definition rootKeyAgreementRecipientG (senderHeaderPub senderIdentity recipientIdentity : bytes)
    (senderSession senderID recipientKI : keyEntry) (recipientKIPriv : bytes) (recipientID : keyEntry)
    (recipientIDPriv : bytes) (previousRootKeyHash : option bytes) (numOfKeys : N) : G W unit :=
  gdo recipientIdentityPub <- glift (pub32 recipientID);
  gdo recipientKeyInitPub <- glift (pub32 recipientKI);
  gdo senderSessionPub <- glift (pub32 senderSession);
  gdo senderIdentityPub <- glift (pub32 senderID);
  gdo _ <- glift (checkKeys senderHeaderPub senderIdentityPub senderSessionPub recipientIdentityPub recipientKeyInitPub);
  gdo t1 <- glift (ecdh C recipientKIPriv senderIdentityPub recipientKeyInitPub);
  gdo t2 <- glift (ecdh C recipientKIPriv senderSessionPub recipientKeyInitPub);
  gdo t3 <- glift (ecdh C recipientIDPriv senderSessionPub recipientIdentityPub);
  generateMessageKeysG senderIdentity recipientIdentity (keHash senderID) (keHash recipientID)
    (deriveRootKey C t1 t2 t3 previousRootKeyHash) true senderSessionPub recipientKeyInitPub numOfKeys.
(* msg/session.go:15-18 *)
Definition addSessionKeyG (ke : keyEntry) (priv : bytes) (cleanup : N) : G W unit :=
  ksAddSKey K (keHash ke) (keJSON ke) (b64enc priv) cleanup.
(* msg/session.go:20-35 *)
Definition getSessionKeyG (hash : bytes) : G W (keyEntry * option bytes) :=
  gdo o <- ksGetSKey K hash;
  match o with
  | None => gfail "session: no key entry found"
  | Some k =>
    gdo ke <- glift (newJSONKeyEntry (skJson k));
    if beq (skPriv k) [] then gret (ke, None)
    else match b64dec (skPriv k) with
    | None => gfail "base64"
    | Some p =>
      if beq (keFunc ke) fECDHE || beq (keFunc ke) fED25519 then
        (if lenN p =? (if beq (keFunc ke) fECDHE then 32 else 64) then gret (ke, Some p) else gfail "cipher: SetPrivateKey")
      else gfail "uid: unknown FUNCTION in KeyEntry"
    end
  end.
(* msg/session.go:37-59 *)
Definition setNextSenderSessionPubG (ss : state) (key priv : bytes) (cleanup : N) : G W (keyEntry * state) :=
  let ke := initDHKey C priv in
  gdo _ <- addSessionKeyG ke priv cleanup;
  let ss' := mkState (stSessCount ss) (stMsgCount ss) (stMaxRecv ss) (stRecipTemp ss) (stSenderPub ss)
                     (Some ke) (stNextSeen ss) (stNym ss) (stKeyInit ss) in
  gdo _ <- ksSetState K key ss';
  gret (ke, ss').

(* msg/encrypt.go:142-214 *)
Definition encStateG (a : encArgs) (r : encRnd) : G W (bytes * state) :=
  let from := idUid (eFrom a) in
  let to := eTo a in
  gdo fromKE <- glift (pubKey from);
  gdo fromPub <- glift (pub32 fromKE);
  gdo toKE <- glift (pubKey to);
  gdo toPub <- glift (pub32 toKE);
  let key := calcStateKey C fromPub toPub in
  gdo oss <- (if eStatus a =? StatusReset then gret None else ksGetState K key);
  match oss with
  | None =>
    gdo (recipientTemp, nym) <- ksPubKE K (uIdentity to);
    let senderSession := initDHKey C (rSessPriv r) in
    gdo _ <- addSessionKeyG senderSession (rSessPriv r) (eCleanup a);
    gdo fromPriv <- glift (priv32 fromKE (idEncPriv (eFrom a)));
    gdo _ <- rootKeyAgreementSenderG (dhpub C (rHeaderPriv r)) (uIdentity from) (uIdentity to) senderSession (rSessPriv r)
               fromKE fromPriv recipientTemp toKE None (numKeys (eNumKeys a));
    let ss := mkState 0 0 0 recipientTemp senderSession None None nym true in
    gdo _ <- ksSetState K key ss;
    gret (nym, ss)
  | Some ss =>
    if eStatus a =? StatusError then gret ([], ss)
    else
      match stNextSender ss with
      | None =>
        if rCoin r then
          gdo (_, ss') <- setNextSenderSessionPubG ss key (rSessPriv r) (eCleanup a);
          gret (stNym ss, ss')
        else gret (stNym ss, ss)
      | Some _ => gret (stNym ss, ss)
      end
  end.
(* msg/encrypt.go:262-293 *)
Definition encKeyG (a : encArgs) (ss : state) : G W (bytes * bytes) :=
  let from := idUid (eFrom a) in
  let to := eTo a in
  gdo fromKE <- glift (pubKey from);
  gdo toKE <- glift (pubKey to);
  let sk := calcKey C (keHash fromKE) (keHash toKE) (keHash (stSenderPub ss)) (keHash (stRecipTemp ss)) in
  gdo n <- ksNum K sk;
  gdo _ <- (if n <=? stMsgCount ss then
              gdo chainKey <- ksChain K sk;
              gdo sp <- glift (pub32 (stSenderPub ss));
              gdo rp <- glift (pub32 (stRecipTemp ss));
              generateMessageKeysG (uIdentity from) (uIdentity to) (keHash fromKE) (keHash toKE) chainKey false sp rp (numKeys (eNumKeys a))
            else gret tt);
  gdo mk <- ksMsgKey K sk true (stMsgCount ss);
  gret (sk, mk).
(* msg/encrypt.go:106-441 *)
Definition encryptG (a : encArgs) (r : encRnd) : G W bytes :=
  gdo (nym, ss) <- encStateG a r;
  gdo hp <- glift (encHeader C a r ss);
  gdo (sk, mk) <- encKeyG a ss;
  let content := if eStatus a =? StatusOK then eContent a else [] in
  if MaxContentLength <? lenN content then gfail "len(content) > MaxContentLength"
  else
    gdo body <- glift (sealBody C mk (rIv r) content (eSigKey a) (rPad r));
    let pre := outer_write (newOuterHeader preHeaderPacket 0 (preheader_write (newPreHeader (dhpub C (rHeaderPriv r))))) true in
    let out := b64enc (pre ++ outer_write (newOuterHeader encryptedHeader 1 hp) true ++ body) in
    if negb (lenN out =? EncodedMsgSize) then gfail "out.Len() != EncodedMsgSize"
    else
      gdo _ <- ksOut K out;
      gdo _ <- ksDelMsgKey K sk true (stMsgCount ss);
      gdo fromKE <- glift (pubKey (idUid (eFrom a)));
      gdo fromPub <- glift (pub32 fromKE);
      gdo toKE <- glift (pubKey (eTo a));
      gdo toPub <- glift (pub32 toKE);
      gdo _ <- ksSetState K (calcStateKey C fromPub toPub)
                 (mkState (stSessCount ss) (u64 (stMsgCount ss + 1)) (stMaxRecv ss) (stRecipTemp ss) (stSenderPub ss)
                          (stNextSender ss) (stNextSeen ss) (stNym ss) (stKeyInit ss));
      gret nym.

(* msg/decrypt.go:172-236 *)
Definition decUnknownG (hp : bytes) (i : ident) (recipKE : keyEntry) (h : header) (key sk : bytes) (oss : option state)
    (nk : N) (priv : bytes) (cleanup : N) : G W (option state) :=
  let sender := hSender h in
  let recipient := uIdentity (idUid i) in
  gdo oki <- ksPrivKE K (hRecipTempHash h);
  match oki with
  | None => gret oss
  | Some (ki, kiPriv) =>
    gdo recipPriv <- glift (priv32 recipKE (idEncPriv i));
    gdo _ <- rootKeyAgreementRecipientG hp sender recipient (hSessPub h) (hSenderPub h) ki kiPriv recipKE recipPriv None nk;
    if match oss with None => true | Some ss => stKeyInit ss && bltb sender recipient end then
      let next := initDHKey C priv in
      gdo _ <- addSessionKeyG next priv cleanup;
      gdo _ <- match hNext h with
               | None => gret tt
               | Some hn =>
                 gdo prev <- ksRoot K sk;
                 rootKeyAgreementSenderG hp recipient sender next priv recipKE recipPriv hn (hSenderPub h) (Some prev) nk
               end;
      let ss := mkState 0 0 0 (hSessPub h) ki (Some next) (hNext h) (hNym h) false in
      gdo _ <- ksSetState K key ss;
      gret (Some ss)
    else gret oss
  end.
(* msg/decrypt.go:237-345 *)
Definition decKnownG (hp : bytes) (i : ident) (recipKE : keyEntry) (h : header) (key sk : bytes) (oss : option state)
    (nk : N) (priv : bytes) (cleanup : N) : G W (option state) :=
  let sender := hSender h in
  let recipient := uIdentity (idUid i) in
  match oss with
  | None => glift Panic
  | Some ss =>
    gdo ss <-
      (if beq (hRecipTempHash h) (keHash (stSenderPub ss)) && beq (keHash (hSessPub h)) (keHash (stRecipTemp ss)) then
         match hNext h with
         | None => gret ss
         | Some hn =>
           match stNextSender ss with
           | None =>
             gdo (next, ss) <- setNextSenderSessionPubG ss key priv cleanup;
             gdo prev <- ksRoot K sk;
             gdo recipPriv <- glift (priv32 recipKE (idEncPriv i));
             gdo _ <- rootKeyAgreementSenderG hp recipient sender next priv recipKE recipPriv hn (hSenderPub h) (Some prev) nk;
             match stNextSeen ss with
             | None =>
               let ss' := mkState (stSessCount ss) (stMsgCount ss) (stMaxRecv ss) (stRecipTemp ss) (stSenderPub ss)
                            (stNextSender ss) (Some hn) (stNym ss) (stKeyInit ss) in
               gdo _ <- ksSetState K key ss';
               gret ss'
             | Some _ => gret ss
             end
           | Some own =>
             if isHash (keHash own) (hSeen h) then
               gdo (next, onextPriv) <- getSessionKeyG (keHash own);
               gdo prev <- ksRoot K sk;
               gdo recipPriv <- glift (priv32 recipKE (idEncPriv i));
               gdo nextPriv <- glift (priv32 next onextPriv);
               gdo _ <- rootKeyAgreementRecipientG hp sender recipient hn (hSenderPub h) next nextPriv recipKE recipPriv (Some prev) nk;
               let ss' := switched ss hn next (hNym h) in
               gdo _ <- ksSetState K key ss';
               gret ss'
             else gret ss
           end
         end
       else
         match stNextSender ss with
         | Some own =>
           if isHash (hRecipTempHash h) (Some own) && isHash (keHash (hSessPub h)) (stNextSeen ss) then
             let ss' := switched ss (hSessPub h) own (hNym h) in
             gdo _ <- ksSetState K key ss';
             gret ss'
           else gret ss
         | None => gret ss
         end);
    gdo _ <- ksDelPriv K (hRecipTempHash h);
    gret (Some ss)
  end.
(* msg/decrypt.go:347-405 *)
Definition decKeyG (i : ident) (recipKE : keyEntry) (h : header) (sk : bytes) (oss : option state) (nk : N) : G W bytes :=
  let sender := hSender h in
  let recipient := uIdentity (idUid i) in
  gdo n <- ksNum K sk;
  gdo _ <- (if n <=? hMsgCount h then
              gdo chainKey <- ksChain K sk;
              let cnt := refillCount (hMsgCount h) nk in
              if refillLimit <? cnt then gfail "msg: requested number of message keys too large"
              else
                match oss with
                | None => glift Panic
                | Some ss =>
                  gdo rp <-
                    (if beq (hRecipTempHash h) (keHash (stSenderPub ss)) then glift (pub32 (stSenderPub ss))
                     else
                       gdo oki <- ksPrivKE K (hRecipTempHash h);
                       match oki with
                       | Some (ki, _) => glift (pub32 ki)
                       | None => gdo (ke, _) <- getSessionKeyG (hRecipTempHash h); glift (pub32 ke)
                       end);
                  gdo sp <- glift (pub32 (hSessPub h));
                  generateMessageKeysG sender recipient (keHash (hSenderPub h)) (keHash recipKE) chainKey true sp rp cnt
                end
            else gret tt);
  ksMsgKey K sk false (hMsgCount h).
(* msg/decrypt.go:155-345 *)
Definition decStateG (a : decArgs) (hp : bytes) (i : ident) (h : header) : G W (keyEntry * bytes * option state) :=
  gdo recipKE <- glift (pubKey (idUid i));
  gdo rp <- glift (pub32 recipKE);
  gdo sp <- glift (pub32 (hSenderPub h));
  let key := calcStateKey C rp sp in
  gdo oss <- ksGetState K key;
  let sk := calcKey C (keHash recipKE) (keHash (hSenderPub h)) (hRecipTempHash h) (keHash (hSessPub h)) in
  gdo known <- ksHasSession K sk;
  gdo oss <- (if known then decKnownG hp i recipKE h key sk oss (numKeys (dNumKeys a)) (dPriv a) (dCleanup a)
              else decUnknownG hp i recipKE h key sk oss (numKeys (dNumKeys a)) (dPriv a) (dCleanup a));
  gret (recipKE, sk, oss).
(* msg/decrypt.go:102-582 *)
Definition decryptG (a : decArgs) (preHeader s : bytes) : G W (bytes * bytes) :=
  gdo (hp, i, h, s) <- glift (decHeader C (dIds a) preHeader s);
  gdo (recipKE, sk, oss) <- decStateG a hp i h;
  gdo mk <- decKeyG i recipKE h sk oss (numKeys (dNumKeys a));
  gdo (o2, o3, ih, s) <- glift (openContent C mk s);
  gdo _ <- ksOut K (iContent ih);
  gdo sig <- glift (openRest C mk (hUID h) o2 o3 ih s);
  gdo _ <- ksDelMsgKey K sk false (hMsgCount h);
  gret (hSender h, sig).
(* cryptengine/decrypt.go:39-82 *)
Definition receiveG (a : decArgs) (msg : bytes) : G W (bytes * bytes) :=
  match b64dec msg with
  | None => gfail "base64"
  | Some raw =>
    gdo (v, pre, s) <- glift (ReadFirstOuterHeader raw);
    if negb (v =? Version) then gfail "cryptengine: invalid message version" else decryptG a pre s
  end.
End Generic.

(* Over the in-memory store these are the functions of ProtoModel. *)
Lemma encryptG_mem C a r : encryptG C world memKS a r = encrypt C a r.
Proof. reflexivity. Qed.
Lemma receiveG_mem C a msg : receiveG C world memKS a msg = receive C a msg.
Proof. reflexivity. Qed.

(* Encrypt and Decrypt as mutecrypt runs them (cryptengine/encrypt.go, cryptengine/decrypt.go) *)
Definition encryptDB (C : Crypto) (a : encArgs) (r : encRnd) : G dbw bytes := encryptG C dbw dbKS a r.
Definition receiveDB (C : Crypto) (a : decArgs) (msg : bytes) : G dbw (bytes * bytes) := receiveG C dbw dbKS a msg.
