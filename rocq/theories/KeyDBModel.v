(* The key database (package keydb): sessions and their message keys, session states,
   session keys, own and public UID messages, hash chains, the key-value store.

   A database is a set of tables plus the row id most recently inserted through the
   connection that executes the statements: keydb.AddSession asks the driver for
   LastInsertId after an UPDATE, and SQLite then answers the row id of the last INSERT
   of the connection, of whatever table (0 on a connection that has inserted nothing).
   [KNewConn] stands for database/sql opening another connection.
   Simplifications: private keys, key inits and the version entry are left out; every
   statement either succeeds or fails as in the code for the reasons visible in the
   code (empty arguments, a uint64 beyond the range of a SQLite integer). *)
From Verif Require Import Base Base64Model CodecModel IdentityModel JsonModel CryptoModel Maps StoreModel KeysModel HeaderModel SqlModel.
Local Open Scope N_scope.

(* SELECT ... WHERE p ORDER BY f DESC, first row; among equal rows the one inserted first *)
Fixpoint tmax {A} (p : A -> bool) (f : A -> N) (t : tbl A) : option (N * A) :=
  match t with
  | [] => None
  | r :: t' =>
      if p (snd r)
      then match tmax p f t' with
           | Some r' => if f (snd r) <? f (snd r') then Some r' else Some r
           | None => Some r
           end
      else tmax p f t'
  end.
(* database/sql: a uint64 argument with the high bit set is refused *)
Definition sqlInt (n : N) : bool := n <? 2 ^ 63.

(* keydb/keydb.go:32-112, the columns that are read *)
Record privRow := mkPriv { pvIdentity : bytes; pvCount : N; pvMsg : bytes; pvReply : bytes }.
Record pubRow := mkPub { pbIdentity : bytes; pbCount : N; pbPos : N; pbMsg : bytes }.
Record sessRow := mkSR { srKey : bytes; srRoot : bytes; srChain : bytes; srNum : N }.
Record keyRow := mkKR { krSess : N; krNum : N; krKey : bytes; krSend : bool }.
Record hcRow := mkHR { hrDomain : bytes; hrPos : N; hrEntry : bytes }.
Record stRow := mkStR { sxKey : bytes; sxSess : N; sxMsg : N; sxMax : N; sxTemp : bytes; sxPub : bytes; sxNext : bytes; sxSeen : bytes; sxNym : bytes; sxInit : bool }.
Record skRow := mkSkR { skrHash : bytes; skrJson : bytes; skrPriv : bytes; skrClean : N }.
Record keydb := mkKDB {
  kPriv : tbl privRow; kPub : tbl pubRow; kSess : tbl sessRow; kKeys : tbl keyRow; kChain : tbl hcRow;
  kStates : tbl stRow; kSKeys : tbl skRow; kLast : N }.
Definition emptyKDB : keydb := mkKDB [] [] [] [] [] [] [] 0.
Definition setPriv t l (d : keydb) := mkKDB t (kPub d) (kSess d) (kKeys d) (kChain d) (kStates d) (kSKeys d) l.
Definition setPub t l (d : keydb) := mkKDB (kPriv d) t (kSess d) (kKeys d) (kChain d) (kStates d) (kSKeys d) l.
Definition setSess t l (d : keydb) := mkKDB (kPriv d) (kPub d) t (kKeys d) (kChain d) (kStates d) (kSKeys d) l.
Definition setKeys t l (d : keydb) := mkKDB (kPriv d) (kPub d) (kSess d) t (kChain d) (kStates d) (kSKeys d) l.
Definition setChain t l (d : keydb) := mkKDB (kPriv d) (kPub d) (kSess d) (kKeys d) t (kStates d) (kSKeys d) l.
Definition setStates t l (d : keydb) := mkKDB (kPriv d) (kPub d) (kSess d) (kKeys d) (kChain d) t (kSKeys d) l.
Definition setSKeys t l (d : keydb) := mkKDB (kPriv d) (kPub d) (kSess d) (kKeys d) (kChain d) (kStates d) t l.
Definition setLast l (d : keydb) := mkKDB (kPriv d) (kPub d) (kSess d) (kKeys d) (kChain d) (kStates d) (kSKeys d) l.

(* ------------------------------------------------------------------ *)
(* Sessions (keydb/session.go).                                        *)
Definition bySess (sk : bytes) (_ : N) (r : sessRow) : bool := beq (srKey r) sk.
(* keydb/session.go:96-112 GetSession; None is sql.ErrNoRows *)
Definition dbSession (sk : bytes) (d : keydb) : option (bytes * bytes * N) :=
  match tmin (bySess sk) (kSess d) with Some (_, r) => Some (srRoot r, srChain r, srNum r) | None => None end.
(* keydb/session.go:70-84: the loop that stores the keys; sender key first, then receiver key *)
Fixpoint insKeys (sid off : N) (send recv : list bytes) (t : tbl keyRow) (last : N) : tbl keyRow * N :=
  match send, recv with
  | s :: send', r :: recv' =>
      let t1 := tins (mkKR sid off s true) t in
      insKeys sid (off + 1) send' recv' (tins (mkKR sid off r false) t1) (nextId t1)
  | _, _ => (t, last)
  end.
(* keydb/session.go:16-93 AddSession *)
Definition addSession (sk root chain : bytes) (send recv : list bytes) (d : keydb) : res keydb :=
  if beq sk [] then Err "keydb: sessionKey must be defined"
  else if beq root [] then Err "keydb: rootKeyHash must be defined"
  else if beq chain [] then Err "keydb: chainKey must be defined"
  else if negb (lenN send =? lenN recv) then Err "keydb: len(send) != len(recv)"
  else
    let (d1, off) := match tmin (bySess sk) (kSess d) with
                     | None => (setSess (tins (mkSR sk root chain (lenN send)) (kSess d)) (nextId (kSess d)) d, 0)
                     | Some (_, r) =>
                         (setSess (tupd (bySess sk) (fun x => mkSR (srKey x) (srRoot x) chain (srNum r + lenN send)) (kSess d)) (kLast d) d, srNum r)
                     end in
    let (t, l) := insKeys (kLast d1) off send recv (kKeys d1) (kLast d1) in
    Ok (setKeys t l d1).
Definition byKey (sid i : N) (sender : bool) (_ : N) (r : keyRow) : bool :=
  (krSess r =? sid) && (krNum r =? i) && Bool.eqb (krSend r) sender.
(* keydb/session.go:115-135 GetMessageKey *)
Definition dbMessageKey (sk : bytes) (sender : bool) (i : N) (d : keydb) : res bytes :=
  match tmin (bySess sk) (kSess d) with
  | None => Err "sql: no rows in result set"
  | Some (sid, _) =>
    if negb (sqlInt i) then Err "sql: uint64 values with high bit set are not supported"
    else match tmin (byKey sid i sender) (kKeys d) with
    | None => Err "sql: no rows in result set"
    | Some (_, r) => Ok (krKey r)
    end
  end.
(* keydb/session.go:138-157 DelMessageKey *)
Definition dbDelMessageKey (sk : bytes) (sender : bool) (i : N) (d : keydb) : res keydb :=
  match tmin (bySess sk) (kSess d) with
  | None => Err "sql: no rows in result set"
  | Some (sid, _) =>
    if negb (sqlInt i) then Err "sql: uint64 values with high bit set are not supported"
    else Ok (setKeys (tdel (byKey sid i sender) (kKeys d)) (kLast d) d)
  end.

(* ------------------------------------------------------------------ *)
(* Session states (keydb/sessionstate.go) and session keys (keydb/sessionkey.go). *)
Definition optJSON (o : option keyEntry) : bytes := match o with Some k => keJSON k | None => [] end.
Definition stateRow (k : bytes) (s : state) : stRow :=
  mkStR k (stSessCount s) (stMsgCount s) (stMaxRecv s) (keJSON (stRecipTemp s)) (keJSON (stSenderPub s))
    (optJSON (stNextSender s)) (optJSON (stNextSeen s)) (stNym s) (stKeyInit s).
Definition byState (k : bytes) (_ : N) (r : stRow) : bool := beq (sxKey r) k.
(* keydb/sessionstate.go:86-134 SetSessionState *)
Definition dbSetState (k : bytes) (s : state) (d : keydb) : res keydb :=
  if beq k [] then Err "keydb: sessionStateKey must be defined"
  else if negb (sqlInt (stSessCount s) && sqlInt (stMsgCount s) && sqlInt (stMaxRecv s))
  then Err "sql: uint64 values with high bit set are not supported"
  else if thas (byState k) (kStates d) then Ok (setStates (tupd (byState k) (fun _ => stateRow k s) (kStates d)) (kLast d) d)
  else Ok (setStates (tins (stateRow k s) (kStates d)) (nextId (kStates d)) d).
Definition optKE (s : bytes) : res (option keyEntry) :=
  if beq s [] then Ok None else do k <- newJSONKeyEntry s; Ok (Some k).
(* keydb/sessionstate.go:16-82 GetSessionState; None is (nil, nil) *)
Definition dbGetState (k : bytes) (d : keydb) : res (option state) :=
  if beq k [] then Err "keydb: sessionStateKey must be defined"
  else match tmin (byState k) (kStates d) with
  | None => Ok None
  | Some (_, r) =>
    do rt <- newJSONKeyEntry (sxTemp r);
    do sp <- newJSONKeyEntry (sxPub r);
    do nx <- optKE (sxNext r);
    do sn <- optKE (sxSeen r);
    Ok (Some (mkState (sxSess r) (sxMsg r) (sxMax r) rt sp nx sn (sxNym r) (sxInit r)))
  end.
Definition bySKey (h : bytes) (_ : N) (r : skRow) : bool := beq (skrHash r) h.
(* keydb/sessionkey.go:14-32 AddSessionKey *)
Definition dbAddSessionKey (h j p : bytes) (cleanup : N) (d : keydb) : res keydb :=
  if beq h [] then Err "keydb: hash must be defined"
  else if beq j [] then Err "keydb: json must be defined"
  else if beq p [] then Err "keydb: privKey must be defined"
  else if negb (sqlInt cleanup) then Err "sql: uint64 values with high bit set are not supported"
  else Ok (setSKeys (tins (mkSkR h j p cleanup) (kSKeys d)) (nextId (kSKeys d)) d).
(* keydb/sessionkey.go:35-50 GetSessionKey *)
Definition dbGetSessionKey (h : bytes) (d : keydb) : res (bytes * bytes) :=
  if beq h [] then Err "keydb: hash must be defined"
  else match tmin (bySKey h) (kSKeys d) with
  | None => Err "sql: no rows in result set"
  | Some (_, r) => Ok (skrJson r, skrPriv r)
  end.
(* keydb/sessionkey.go:54-63 DelPrivSessionKey *)
Definition dbDelPriv (h : bytes) (d : keydb) : res keydb :=
  if beq h [] then Err "keydb: hash must be defined"
  else Ok (setSKeys (tupd (bySKey h) (fun r => mkSkR (skrHash r) (skrJson r) [] (skrClean r)) (kSKeys d)) (kLast d) d).

(* ------------------------------------------------------------------ *)
(* UID messages (keydb/keydb.go).                                      *)
(* uid/uid.go:113-124 Entry and MessageReply in one record *)
Record uidReply := mkReply { rpEnc : bytes; rpHCEntry : bytes; rpHCPos : N; rpSrvSig : bytes }.
(* uid/uid.go:430-437 *)
Definition entryToJson (r : uidReply) : json :=
  JObj [(str "HASHCHAINENTRY", JStr (rpHCEntry r)); (str "HASHCHAINPOS", JN (rpHCPos r)); (str "UIDMESSAGEENCRYPTED", JStr (rpEnc r))].
Definition entryJSON (r : uidReply) : bytes := jprint (entryToJson r).
Definition replyJSON (r : uidReply) : bytes :=
  jprint (JObj [(str "ENTRY", entryToJson r); (str "SERVERSIGNATURE", JStr (rpSrvSig r))]).
(* uid/uid.go:398-404 NewJSONReply *)
Definition replyOfJson (v : json) : option uidReply :=
  doo top <- dec_obj (Some v);
  doo e <- dec_obj (jfield (str "ENTRY") top);
  doo enc <- dec_str (jfield (str "UIDMESSAGEENCRYPTED") e);
  doo he <- dec_str (jfield (str "HASHCHAINENTRY") e);
  doo hp <- dec_uint 64 (jfield (str "HASHCHAINPOS") e);
  doo sg <- dec_str (jfield (str "SERVERSIGNATURE") top);
  Some (mkReply enc he hp sg).
Definition newJSONReply (s : bytes) : res uidReply :=
  match jparse s with
  | None => Err "json"
  | Some v => match replyOfJson v with Some r => Ok r | None => Err "json: cannot unmarshal" end
  end.

(* keydb/keydb.go:397-410 AddPrivateUID *)
Definition addPrivateUID (u : uidMsg) (d : keydb) : res keydb :=
  if negb (sqlInt (uMsgCount u)) then Err "sql: uint64 values with high bit set are not supported"
  else Ok (setPriv (tins (mkPriv (uIdentity u) (uMsgCount u) (uidJSON u) []) (kPriv d)) (nextId (kPriv d)) d).
(* keydb/keydb.go:413-422 AddPrivateUIDReply *)
Definition addPrivateUIDReply (u : uidMsg) (r : uidReply) (d : keydb) : res keydb :=
  Ok (setPriv (tupd (fun _ x => beq (pvMsg x) (uidJSON u)) (fun x => mkPriv (pvIdentity x) (pvCount x) (pvMsg x) (replyJSON r)) (kPriv d)) (kLast d) d).
(* keydb/keydb.go:425-430 DelPrivateUID *)
Definition delPrivateUID (u : uidMsg) (d : keydb) : res keydb :=
  Ok (setPriv (tdel (fun _ x => beq (pvMsg x) (uidJSON u)) (kPriv d)) (kLast d) d).
(* keydb/keydb.go:433-451 GetPrivateIdentities (SELECT DISTINCT) *)
Fixpoint dedup (l : list bytes) : list bytes :=
  match l with [] => [] | x :: l' => x :: filter (fun y => negb (beq y x)) (dedup l') end.
Definition privIdentities (d : keydb) : list bytes := dedup (map (fun r => pvIdentity (snd r)) (kPriv d)).
(* keydb/keydb.go:587-598 AddPublicUID *)
Definition addPublicUID (u : uidMsg) (pos : N) (d : keydb) : res keydb :=
  if negb (sqlInt (uMsgCount u) && sqlInt pos) then Err "sql: uint64 values with high bit set are not supported"
  else Ok (setPub (tins (mkPub (uIdentity u) (uMsgCount u) pos (uidJSON u)) (kPub d)) (nextId (kPub d)) d).
(* keydb/keydb.go:602-621 GetPublicUID; None is found = false *)
Definition getPublicUID (identity : bytes) (maxpos : N) (d : keydb) : res (option (uidMsg * N)) :=
  if negb (sqlInt maxpos) then Err "sql: uint64 values with high bit set are not supported"
  else match tmax (fun r => beq (pbIdentity r) identity && (pbPos r <=? maxpos)) pbPos (kPub d) with
  | None => Ok None
  | Some (_, r) => do u <- newJSONUid (pbMsg r); Ok (Some (u, pbPos r))
  end.

Section Keydb.
Variable U : Unicode.
Variable C : Crypto.

(* uid/uid.go:440-462 VerifySelfSig *)
Definition verifySelfSig (u : uidMsg) : res unit :=
  match b64dec (uSelfSig u) with
  | None => Err "base64"
  | Some sig =>
    match b64dec (kePub (uSigKey u)) with
    | None => Err "base64"
    | Some pk =>
      if negb (lenN pk =? 32) then Err "cipher: Ed25519Key.SetPublicKey(): wrong length"
      else if edverify C pk (contentJSON u) sig then Ok tt else Err "uid: self-signature invalid"
    end
  end.
(* keydb/keydb.go:477-519 GetPrivateUID(identity, false) *)
Definition getPrivateUID (identity : bytes) (d : keydb) : res (uidMsg * option uidReply) :=
  match tmax (fun r => beq (pvIdentity r) identity) pvCount (kPriv d) with
  | None => Err "keydb: no privkey for nym found"
  | Some (_, r) =>
    do u <- newJSONUid (pvMsg r);
    do _ <- verifySelfSig u;
    if beq (pvReply r) [] then Ok (u, None)
    else do p <- newJSONReply (pvReply r); Ok (u, Some p)
  end.
(* keydb/keydb.go:455-472 GetPrivateIdentitiesForDomain *)
Fixpoint idsForDomain (dmn : bytes) (l : list bytes) : res (list bytes) :=
  match l with
  | [] => Ok []
  | id :: l' =>
    do (_, idd) <- split id;
    do r <- idsForDomain dmn l';
    Ok (if beq idd dmn then id :: r else r)
  end.
Definition privIdentitiesForDomain (domain : bytes) (d : keydb) : res (list bytes) :=
  idsForDomain (mapDomain U domain) (privIdentities d).

(* ------------------------------------------------------------------ *)
(* Hash chains (keydb/keydb.go:625-696).                               *)
Definition addChainEntry (domain : bytes) (pos : N) (entry : bytes) (d : keydb) : res keydb :=
  if negb (sqlInt pos) then Err "sql: uint64 values with high bit set are not supported"
  else Ok (setChain (tins (mkHR (mapDomain U domain) pos entry) (kChain d)) (nextId (kChain d)) d).
(* keydb/keydb.go:641-656 GetLastHashChainPos; None is found = false *)
Definition lastChainPos (domain : bytes) (d : keydb) : option N :=
  match tmax (fun r => beq (hrDomain r) (mapDomain U domain)) hrPos (kChain d) with
  | Some (_, r) => Some (hrPos r)
  | None => None
  end.
(* keydb/keydb.go:660-670 GetHashChainEntry *)
Definition chainEntry (domain : bytes) (pos : N) (d : keydb) : res bytes :=
  if negb (sqlInt pos) then Err "sql: uint64 values with high bit set are not supported"
  else match tmin (fun _ r => beq (hrDomain r) (mapDomain U domain) && (hrPos r =? pos)) (kChain d) with
  | None => Err "sql: no rows in result set"
  | Some (_, r) => Ok (hrEntry r)
  end.
(* keydb/keydb.go:690-696 DelHashChain *)
Definition delChain (domain : bytes) (d : keydb) : keydb :=
  setChain (tdel (fun _ r => beq (hrDomain r) (mapDomain U domain)) (kChain d)) (kLast d) d.

(* ------------------------------------------------------------------ *)
(* All calls of the package that write; a call that fails leaves the database as it was
   (AddSession works in a transaction). *)
Inductive kop :=
| KAddSession (sk root chain : bytes) (send recv : list bytes)
| KDelMessageKey (sk : bytes) (sender : bool) (i : N)
| KSetState (k : bytes) (s : state)
| KAddSessionKey (h j p : bytes) (cleanup : N)
| KDelPriv (h : bytes)
| KAddPrivateUID (u : uidMsg)
| KAddPrivateUIDReply (u : uidMsg) (r : uidReply)
| KDelPrivateUID (u : uidMsg)
| KAddPublicUID (u : uidMsg) (pos : N)
| KAddChainEntry (domain : bytes) (pos : N) (entry : bytes)
| KDelChain (domain : bytes)
| KNewConn.
Definition kexec (o : kop) (d : keydb) : res keydb :=
  match o with
  | KAddSession sk root chain send recv => addSession sk root chain send recv d
  | KDelMessageKey sk sender i => dbDelMessageKey sk sender i d
  | KSetState k s => dbSetState k s d
  | KAddSessionKey h j p c => dbAddSessionKey h j p c d
  | KDelPriv h => dbDelPriv h d
  | KAddPrivateUID u => addPrivateUID u d
  | KAddPrivateUIDReply u r => addPrivateUIDReply u r d
  | KDelPrivateUID u => delPrivateUID u d
  | KAddPublicUID u pos => addPublicUID u pos d
  | KAddChainEntry dm pos e => addChainEntry dm pos e d
  | KDelChain dm => Ok (delChain dm d)
  | KNewConn => Ok (setLast 0 d)
  end.
Definition kstep (d : keydb) (o : kop) : keydb := match kexec o d with Ok d' => d' | _ => d end.
Definition krun (ops : list kop) (d : keydb) : keydb := fold_left kstep ops d.
End Keydb.
