(* The wallet: serviceguard/client/walletstore and the token handling of serviceguard/client.

   The two tables are modelled as in SqlModel; every SQL statement is one atomic step.
   Not modelled: disk errors, the tie breaking of ORDER BY Expire (the oldest row is
   taken), the mutexes of the cache. *)
From Verif Require Import Base Base64Model Asn1Model Maps SqlModel.
Local Open Scope N_scope.
Delimit Scope string_scope with string.

(* serviceguard/client/walletstore.go:32-46 TokenEntry; nil slices and pointers are None.  Array lengths (32, 64) are a
   side condition, see [arrays] in WalletProofs. *)
Record tokenEntry := mkTE { tHash : bytes; tToken : bytes; tParams : option bytes; tPub : option bytes; tPriv : option bytes;
  tRenew : bool; tReissue : bool; tUsage : bytes; tExpire : Z; tPacket : option bytes; tBlind : option bytes;
  tNewPub : option bytes; tNewPriv : option bytes }.
(* serviceguard/client/walletstore/store.go:23-39 createQueryTokens *)
Record wRow := mkW { wTime : Z; wLock : Z; wHash : bytes; wToken : bytes; wPub : bytes; wPriv : bytes; wRenew : bool; wReissue : bool;
  wUsage : bytes; wExpire : Z; wSelf : bool; wParams : bool; wState : bool }.
(* serviceguard/client/walletstore/store.go:40-45 createQueryState *)
Record wdb := mkWdb { wTok : tbl wRow; wSt : map_ bytes }.
Definition emptyW : wdb := mkWdb [] [].
Definition isSome {A} (o : option A) : bool := match o with Some _ => true | None => false end.
Definition orNil (o : option bytes) : bytes := match o with Some b => b | None => [] end.
Definition oneOf (b : bytes) : option bytes := match b with [] => None | _ => Some b end.
Definition optOf (n : N) (b : bytes) : option bytes := if lenN b =? n then Some b else None.

(* serviceguard/client/walletstore/types.go:42-85 encodeToken; the lock fields of the row are 0.
   A nil OwnerPubKey is dereferenced in line 46. *)
Definition encodeToken (t : tokenEntry) : res (wRow * bytes) :=
  match tPub t with
  | None => Panic
  | Some pub =>
    let hasParams := isSome (tParams t) in
    let hasState := isSome (tPacket t) || isSome (tBlind t) || isSome (tNewPriv t) in
    do state <- (if hasState || hasParams then
        match derMarshal [DOct (orNil (tParams t)); DOct (orNil (tPacket t)); DOct (orNil (tBlind t)); DOct (orNil (tNewPub t)); DOct (orNil (tNewPriv t))] with
        | Some m => Ok (b64enc m)
        | None => Panic
        end
      else Ok []);
    Ok (mkW 0 0 (hexenc (tHash t)) (b64enc (tToken t)) (b64enc pub) (match tPriv t with Some k => b64enc k | None => [] end)
          (tRenew t) (tReissue t) (tUsage t) (tExpire t) (isSome (tPriv t)) hasParams hasState, state)
  end.
Definition opt {A} (o : option A) (e : String.string) : res A := match o with Some a => Ok a | None => Err e end.
Arguments opt {A} o e%string.
(* copy into a zeroed array of n bytes *)
Definition arr (n : N) (b : bytes) : bytes := takeN n (b ++ repeat 0 (N.to_nat n)).
(* serviceguard/client/walletstore/types.go:88-145 decodeToken *)
Definition decodeToken (g : wRow) (state : bytes) : res tokenEntry :=
  do hash <- opt (hexdec (wHash g)) "encoding/hex: invalid byte";
  do pub <- opt (b64dec (wPub g)) "illegal base64 data";
  do tok <- opt (b64dec (wToken g)) "illegal base64 data";
  do priv <- (if wSelf g then do k <- opt (b64dec (wPriv g)) "illegal base64 data"; Ok (Some (arr 64 k)) else Ok None);
  do st <- (if wState g || wParams g then
      do m <- opt (b64dec state) "illegal base64 data";
      derUnmarshal [TOct; TOct; TOct; TOct; TOct] m
    else Ok [DOct []; DOct []; DOct []; DOct []; DOct []]);
  match st with
  | [DOct params; DOct packet; DOct blind; DOct npub; DOct npriv] =>
    Ok (mkTE hash tok (oneOf params) (Some (arr 32 pub)) priv (wRenew g) (wReissue g) (wUsage g) (wExpire g)
          (oneOf packet) (oneOf blind) (optOf 32 npub) (optOf 64 npriv))
  | _ => Err "asn1"
  end.

(* ------------------------------------------------------------------ *)
(* The SQL statements of serviceguard/client/walletstore/store.go:46-70. *)
Definition sameHash (h : bytes) (_ : N) (r : wRow) : bool := beq (wHash r) h.
(* serviceguard/client/walletstore/store.go:46-50, 218-232: INSERT; if the hash exists, UPDATE of all columns but the lock *)
Definition setRow (g : wRow) (db : wdb) : wdb :=
  if thas (sameHash (wHash g)) (wTok db) then
    mkWdb (tupd (sameHash (wHash g)) (fun r => mkW (wTime r) (wLock r) (wHash g) (wToken g) (wPub g) (wPriv g) (wRenew g) (wReissue g)
             (wUsage g) (wExpire g) (wSelf g) (wParams g) (wState g)) (wTok db)) (wSt db)
  else mkWdb (tins g (wTok db)) (wSt db).
(* serviceguard/client/walletstore/store.go:54-55, 233-241 *)
Definition setState (h state : bytes) (db : wdb) : wdb :=
  match state with [] => db | _ => mkWdb (wTok db) (mset h state (wSt db)) end.
(* serviceguard/client/walletstore/store.go:59-60, 272-277 the two statements of DelToken *)
Definition delRow (h : bytes) (db : wdb) : wdb := mkWdb (tdel (sameHash h) (wTok db)) (wSt db).
Definition delState (h : bytes) (db : wdb) : wdb := mkWdb (wTok db) (mdel h (wSt db)).
Definition setLock (id now : Z) (r : wRow) : wRow :=
  mkW now id (wHash r) (wToken r) (wPub r) (wPriv r) (wRenew r) (wReissue r) (wUsage r) (wExpire r) (wSelf r) (wParams r) (wState r).
(* serviceguard/client/walletstore/store.go:57 lockQuery: "Hash=? AND LockID=0 OR LockID=?", AND binds tighter *)
Definition lockable (h : bytes) (id : Z) (_ : N) (r : wRow) : bool := (beq (wHash r) h && (wLock r =? 0)%Z) || (wLock r =? id)%Z.

(* ------------------------------------------------------------------ *)
(* The methods of the store. *)
(* serviceguard/client/walletstore/store.go:218-243 SetToken *)
Definition setToken (t : tokenEntry) (db : wdb) : res wdb :=
  do (g, state) <- encodeToken t; Ok (setState (wHash g) state (setRow g db)).
(* serviceguard/client/walletstore/store.go:246-270 GetToken *)
Definition errLocked : String.string := "client: token in use"%string.
Definition getToken (hash : bytes) (lockID : Z) (db : wdb) : res tokenEntry :=
  match tmin (sameHash (hexenc hash)) (wTok db) with
  | None => Err "sql: no rows in result set"
  | Some (_, g) =>
    if (0 <=? lockID)%Z && negb (wLock g =? 0)%Z && negb (wLock g =? lockID)%Z then Err errLocked
    else
      do state <- (if wParams g || wState g then opt (mget (hexenc hash) (wSt db)) "sql: no rows in result set" else Ok []);
      decodeToken g state
  end.
(* serviceguard/client/walletstore/store.go:272-277 DelToken *)
Definition delToken (hash : bytes) (db : wdb) : wdb := delState (hexenc hash) (delRow (hexenc hash) db).
(* serviceguard/client/walletstore/store.go:279-299 getLockID, LockToken; [id] is the random lock ID *)
Definition lockToken (hash : bytes) (id now : Z) (db : wdb) : Z * wdb :=
  if thas (lockable (hexenc hash) id) (wTok db) then (id, mkWdb (tupd (lockable (hexenc hash) id) (setLock id now) (wTok db)) (wSt db))
  else ((-1)%Z, db).
(* serviceguard/client/walletstore/store.go:302-305 UnlockToken *)
Definition unlockToken (hash : bytes) (db : wdb) : wdb := mkWdb (tupd (sameHash (hexenc hash)) (setLock 0 0) (wTok db)) (wSt db).
(* serviceguard/common/constants/constants.go:34 ClientMaxLockAge *)
Definition maxLockAge : Z := 3600.
(* serviceguard/common/constants/constants.go:36 ClientExpireEdge *)
Definition expireEdge : Z := 604800.
(* serviceguard/client/walletstore/store.go:209-215 CleanLocks *)
Definition cleanLocks (force : bool) (now : Z) (db : wdb) : wdb :=
  let limit := if force then 4294967295%Z else (now + maxLockAge)%Z in
  mkWdb (tupd (fun _ r => negb (wTime r =? 0)%Z && (wTime r <? limit)%Z) (setLock 0 0) (wTok db)) (wSt db).
(* ... ORDER BY Expire ASC LIMIT 1 *)
Fixpoint first (p : wRow -> bool) (t : tbl wRow) : option wRow :=
  match t with
  | [] => None
  | (_, r) :: t' =>
    if p r then match first p t' with Some r' => if (wExpire r' <? wExpire r)%Z then Some r' else Some r | None => Some r end
    else first p t'
  end.
Definition count (p : wRow -> bool) (t : tbl wRow) : N := lenN (filter (fun e => p (snd e)) t).
(* serviceguard/client/walletstore/store.go:62-64, 67-69 the conditions of the find and count queries *)
Definition selfUsable (usage : bytes) (r : wRow) : bool := (wLock r =? 0)%Z && negb (wState r) && wSelf r && beq (wUsage r) usage.
Definition usable (usage : bytes) (owner : option bytes) (r : wRow) : bool :=
  (wLock r =? 0)%Z && negb (wState r) && negb (wSelf r) &&
  match owner with Some k => beq (wPub r) (b64enc k) | None => true end && beq (wUsage r) usage.
(* serviceguard/client/walletstore/store.go:407-429 getAndLockToken *)
Definition getAndLock1 (usage : bytes) (owner : option bytes) (id now : Z) (db : wdb) : res tokenEntry * wdb :=
  match first (usable usage owner) (wTok db) with
  | None => (Err "client: no token in wallet", db)
  | Some r =>
    match hexdec (wHash r) with
    | None => (Err "client: no token in wallet", db)
    | Some h =>
      let (l, db') := lockToken h id now db in
      if (l <=? 0)%Z then (Err errLocked, db') else (getToken h l db', db')
    end
  end.
Definition isErr {A} (m : res A) (e : String.string) : bool := match m with Err e' => String.eqb e' e | _ => false end.
Arguments isErr {A} m e%string.
(* serviceguard/client/walletstore/store.go:395-405 GetAndLockToken: [ids] are the lock IDs drawn, at most five are used *)
Fixpoint getAndLockN (n : nat) (usage : bytes) (owner : option bytes) (ids : list Z) (now : Z) (db : wdb) : res tokenEntry * wdb :=
  match n, ids with
  | S n', id :: ids' =>
    let (t, db') := getAndLock1 usage owner id now db in
    if isErr t errLocked then getAndLockN n' usage owner ids' now db' else (t, db')
  | _, _ => (Err "client: no token in wallet", db)
  end.
Definition getAndLockToken := getAndLockN 5.
(* serviceguard/client/walletstore/store.go:432-444 FindToken *)
Definition findToken (usage : bytes) (db : wdb) : res tokenEntry :=
  match first (selfUsable usage) (wTok db) with
  | None => Err "client: no token in wallet"
  | Some r => match hexdec (wHash r) with None => Err "client: no token in wallet" | Some h => getToken h (-1) db end
  end.
(* serviceguard/client/walletstore/store.go:447-459 GetExpire *)
Definition getExpire (now : Z) (db : wdb) : option bytes :=
  match first (fun r => (wLock r =? 0)%Z && wRenew r && negb (wState r) && negb (wParams r) && wSelf r && (wExpire r <? now + expireEdge)%Z) (wTok db) with
  | None => None
  | Some r => hexdec (wHash r)
  end.
(* serviceguard/client/walletstore/store.go:462-473 GetInReissue *)
Definition getInReissue (db : wdb) : option bytes :=
  match first (fun r => (wLock r =? 0)%Z && wState r) (wTok db) with None => None | Some r => hexdec (wHash r) end.
(* serviceguard/client/walletstore/store.go:476-499 GetBalanceOwn, GetBalance *)
Definition getBalanceOwn (usage : bytes) (db : wdb) : N := count (selfUsable usage) (wTok db).
Definition getBalance (usage : bytes) (owner : option bytes) (db : wdb) : N := count (usable usage owner) (wTok db).
(* serviceguard/client/walletstore/store.go:503-530 ExpireUnusable: at most ten tokens in row order *)
Definition expireUnusable (now : Z) (db : wdb) : bool * wdb :=
  let old := firstn 10 (map (fun e => wHash (snd e)) (tsel (fun _ r => (wExpire r <? now - expireEdge)%Z) (wTok db))) in
  let hs := flat_map (fun s => match hexdec s with Some h => [h] | None => [] end) old in
  (10 <=? lenN hs, fold_left (fun d h => delToken h d) hs db).

(* ------------------------------------------------------------------ *)
(* The cache of the store. *)
(* serviceguard/client/walletstore/types.go:148-152 CacheData *)
Record cacheData := mkCache { kTok : bytes; kTries : Z; kKeys : list bytes }.
Definition noCache : cacheData := mkCache [] 0 [].
(* serviceguard/client/walletstore/types.go:162-182 Marshal; the keys are a SEQUENCE OF OCTET STRING *)
Definition cacheMarshal (c : cacheData) : bytes :=
  b64enc (tlv 48 (tlv 4 (kTok c) ++ tlv 2 (intBytes (kTries c)) ++ tlv 48 (concat (map (tlv 4) (kKeys c))))).
Fixpoint parseOcts (f : nat) (s : bytes) : res (list bytes) :=
  match s with
  | [] => Ok []
  | _ => match f with
         | O => Err "asn1"
         | S f' => do (_, b, r) <- parseTLV [4] s; do l <- parseOcts f' r; Ok (b :: l)
         end
  end.
(* serviceguard/client/walletstore/types.go:185-209 Unmarshal on new(CacheData) *)
Definition cacheUnmarshal (s : bytes) : res cacheData :=
  do m <- opt (b64dec s) "illegal base64 data";
  do (_, body, _) <- parseTLV [48] m;
  do (_, tok, r) <- parseTLV [4] body;
  do (_, iz, r2) <- parseTLV [2] r;
  do z <- parseInt64 iz;
  do (_, ks, _) <- parseTLV [48] r2;
  do l <- parseOcts (length ks) ks;
  Ok (mkCache tok z (map (arr 32) l)).
(* a running store: the tables and the cache in memory *)
Record store := mkStore { stDB : wdb; stCache : option cacheData }.
Definition cacheKey : bytes := str "CONFIGCACHE".
(* Rows.Scan / Row.Scan: the number of destinations must be the number of columns *)
Definition scan (dests : nat) (cols : list bytes) : res (list bytes) :=
  if Nat.eqb dests (length cols) then Ok cols else Err "sql: expected 2 destination arguments in Scan, not 1".
(* serviceguard/client/walletstore/store.go:308-320 writeCache *)
Definition writeCache (s : store) : store :=
  let c := match stCache s with Some c => c | None => noCache end in
  mkStore (mkWdb (wTok (stDB s)) (mset cacheKey (cacheMarshal c) (wSt (stDB s)))) (stCache s).
(* serviceguard/client/walletstore/store.go:323-336 readCache: the query (serviceguard/client/walletstore/store.go:61) selects Hash and State, line 327 scans one value *)
Definition readCache (s : store) : store :=
  match mget cacheKey (wSt (stDB s)) with
  | None => s
  | Some state =>
    match scan 1 [cacheKey; state] with
    | Ok (data :: _) => match cacheUnmarshal data with Ok c => mkStore (stDB s) (Some c) | _ => s end
    | _ => s
    end
  end.
Definition cacheOr (s : store) : cacheData := match stCache s with Some c => c | None => noCache end.
(* serviceguard/client/walletstore/store.go:339-347 SetVerifyKeys *)
Definition setVerifyKeys (ks : list bytes) (s : store) : store :=
  writeCache (mkStore (stDB s) (Some (mkCache (kTok (cacheOr s)) (kTries (cacheOr s)) ks))).
(* serviceguard/client/walletstore/store.go:350-365 GetVerifyKeys *)
Definition getVerifyKeys (s : store) : list bytes * store :=
  let s := match stCache s with None => readCache s | Some _ => s end in
  let c := cacheOr s in (kKeys c, mkStore (stDB s) (Some c)).
(* serviceguard/client/walletstore/store.go:368-377 SetAuthToken *)
Definition setAuthToken (tok : bytes) (tries : Z) (s : store) : store :=
  writeCache (mkStore (stDB s) (Some (mkCache tok tries (kKeys (cacheOr s))))).
(* serviceguard/client/walletstore/store.go:380-392 GetAuthToken *)
Definition getAuthToken (s : store) : bytes * Z * store :=
  let s := match stCache s with None => readCache s | Some _ => s end in
  (kTok (cacheOr s), kTries (cacheOr s), s).
(* serviceguard/client/walletstore/store.go:107-206 New on an existing database *)
Definition reopen (now : Z) (s : store) : store := mkStore (cleanLocks false now (stDB s)) None.

(* ------------------------------------------------------------------ *)
(* serviceguard/client *)
(* What the servers and the key pool answer during one ReissueToken; [None] is an error, [Some true] a final one. *)
Record reissueEnv := mkRE {
  reOnline : bool;
  reID : Z;                              (* lock ID drawn *)
  reKey : bool;                          (* serviceguard/client/reissue.go:52-62: token unmarshals and its key is in the pool *)
  reParams : option bytes;               (* serviceguard/client/reissue.go:68 GetParams *)
  reBlind : option (bytes * bytes);      (* serviceguard/client/reissue.go:96-105: server packet and blinding factors *)
  reReply : bool;                        (* serviceguard/client/reissue.go:114 the issuer answers *)
  reNew : option (bytes * bytes * bytes * Z) (* serviceguard/client/reissue.go:125-156: hash, token, usage and expiry of the unblinded token *)
}.
(* A run: the database after each statement, newest first, and the result.  A crash leaves any of these databases. *)
Definition run := (list wdb * res bytes)%type.
Definition now_ (tr : list wdb) : wdb := hd emptyW tr.
(* SetToken as two statements *)
Definition setTokenT (t : tokenEntry) (tr : list wdb) : res (list wdb) :=
  do (g, state) <- encodeToken t;
  let tr := setRow g (now_ tr) :: tr in Ok (setState (wHash g) state (now_ tr) :: tr).
Definition withParams (p : bytes) (t : tokenEntry) : tokenEntry :=
  mkTE (tHash t) (tToken t) (Some p) (tPub t) (tPriv t) (tRenew t) (tReissue t) (tUsage t) (tExpire t) (tPacket t) (tBlind t) (tNewPub t) (tNewPriv t).
Definition withPacket (owner packet blind : bytes) (t : tokenEntry) : tokenEntry :=
  mkTE (tHash t) (tToken t) (tParams t) (tPub t) (tPriv t) (tRenew t) (tReissue t) (tUsage t) (tExpire t) (Some packet) (Some blind) (Some owner) (tNewPriv t).
Definition errRetry : String.string := "client: retry"%string.
Definition errFatal : String.string := "client: fatal client error"%string.
(* serviceguard/client/reissue.go:65-112: the preparation of the packet.  With owner nil, lines 90-91 copy through a nil pointer. *)
Definition prepare (owner : option bytes) (e : reissueEnv) (te : tokenEntry) (tr : list wdb) : list wdb * res tokenEntry :=
  match tPacket te with
  | Some _ => (tr, Ok te)
  | None =>
    match (match tParams te with
           | Some _ => (tr, Ok te)
           | None => match reParams e with
                     | None => (tr, Err errRetry)
                     | Some p => let te := withParams p te in
                                 match setTokenT te tr with Ok tr' => (tr', Ok te) | Err s => (tr, Err s) | Panic => (tr, Panic) end
                     end
           end) with
    | (tr, Ok te) =>
      match owner with
      | None => (tr, Panic)
      | Some o =>
        match reBlind e with
        | None => (tr, Err errFatal)
        | Some (packet, blind) =>
          let te := withPacket o packet blind te in
          match setTokenT te tr with Ok tr' => (tr', Ok te) | Err s => (tr, Err s) | Panic => (tr, Panic) end
        end
      end
    | (tr, r) => (tr, r)
    end
  end.
(* serviceguard/client/reissue.go:125-179: after the issuer answered the old token is deleted, the new one is unblinded and stored *)
Definition finish (e : reissueEnv) (te : tokenEntry) (tr : list wdb) : run :=
  let tr := delRow (hexenc (tHash te)) (now_ tr) :: tr in
  let tr := delState (hexenc (tHash te)) (now_ tr) :: tr in
  match reNew e with
  | None => (tr, Err errFatal)
  | Some (h, tok, usage, expire) =>
    match setTokenT (mkTE h tok None (tNewPub te) (tNewPriv te) (tRenew te) (tRenew te) usage expire None None None None) tr with
    | Ok tr' => (tr', Ok h)
    | Err s => (tr, Err s)
    | Panic => (tr, Panic)
    end
  end.
(* serviceguard/client/reissue.go:19-179 ReissueToken.  Line 29 tests lockID == 0, but LockToken reports failure by -1.  The deferred
   UnlockToken (line 33) is executed in every case, also on a panic. *)
Definition reissueToken (hash : bytes) (owner : option bytes) (now : Z) (e : reissueEnv) (db : wdb) : run :=
  if negb (reOnline e) then ([db], Err "client: offline")
  else
    let (l, db1) := lockToken hash (reID e) now db in
    if (l =? 0)%Z then ([db1; db], Err errRetry)
    else
      let (tr, r) :=
        match getToken hash l db1 with
        | Ok te =>
          if negb (isSome (tPriv te)) then ([db1; db], Err errFatal)
          else if negb (reKey e) then ([db1; db], Err errFatal)
          else match prepare owner e te [db1; db] with
               | (tr, Ok te) => if reReply e then finish e te tr else (tr, Err errRetry)
               | (tr, Err s) => (tr, Err s)
               | (tr, Panic) => (tr, Panic)
               end
        | Err s => ([db1; db], Err (if String.eqb s errLocked then errRetry else errFatal))
        | Panic => ([db1; db], Panic)
        end in
      (unlockToken hash (now_ tr) :: tr, r).
(* GetAndLockToken as above, but [mid] is what other users of the database do between the statements of LockToken and
   GetToken (serviceguard/client/walletstore/store.go:424-428) *)
Definition getAndLock1M (mid : wdb -> wdb) (usage : bytes) (owner : option bytes) (id now : Z) (db : wdb) : res tokenEntry * wdb :=
  match first (usable usage owner) (wTok db) with
  | None => (Err "client: no token in wallet", db)
  | Some r =>
    match hexdec (wHash r) with
    | None => (Err "client: no token in wallet", db)
    | Some h =>
      let (l, db') := lockToken h id now db in
      if (l <=? 0)%Z then (Err errLocked, db') else let db' := mid db' in (getToken h l db', db')
    end
  end.
Fixpoint getAndLockM (mid : wdb -> wdb) (n : nat) (usage : bytes) (owner : option bytes) (ids : list Z) (now : Z) (db : wdb) : res tokenEntry * wdb :=
  match n, ids with
  | S n', id :: ids' =>
    let (t, db') := getAndLock1M mid usage owner id now db in
    if isErr t errLocked then getAndLockM mid n' usage owner ids' now db' else (t, db')
  | _, _ => (Err "client: no token in wallet", db)
  end.
(* serviceguard/client/clientlib.go:166-202 GetToken: the token, or nil with a nil error.  [wallet] is the outcome of
   WalletToken (serviceguard/client/walletserver.go:20-82): the hash of the new token and the database, or an error; [id] the lock ID drawn in line 190. *)
Definition clientGetToken (mid : wdb -> wdb) (usage : bytes) (owner : option bytes) (ids : list Z) (now : Z) (wallet : wdb -> res bytes * wdb)
    (e : reissueEnv) (id : Z) (db : wdb) : res (option tokenEntry) * wdb :=
  match getAndLockM mid 5 usage owner ids now db with
  | (Ok t, db) => (Ok (Some t), db)
  | (Panic, db) => (Panic, db)
  | (Err s, db) =>
    if negb (String.eqb s "client: no token in wallet"%string) then (Ok None, db)
    else match owner with
    | None => (Err "client: token needs reissue to owner", db)
    | Some _ =>
      let (h, db) := match findToken usage db with
                     | Ok t => let (tr, r) := reissueToken (tHash t) owner now e db in (r, now_ tr)
                     | _ => wallet db
                     end in
      match h with
      | Ok h =>
        let (l, db) := lockToken h id now db in
        if (l <=? 0)%Z then (Err errRetry, db)
        else match getToken h l db with Ok t => (Ok (Some t), db) | _ => (Err errFatal, db) end
      | Err s => (Err s, db)
      | Panic => (Panic, db)
      end
    end
  end.

(* serviceguard/client/clientlib.go:43-48 Target *)
Record target := mkTarget { gUsage : bytes; gLow : Z; gHigh : Z; gLoad : Z }.
(* serviceguard/client/runner.go:74-107 meetTarget.  The map is given as the list of its entries in the order in which
   Go iterates over it.  [bal] are the balances, [ok] tells whether WalletToken succeeds.  The result: the new entries,
   and for which owner WalletToken was called. *)
Fixpoint meetTarget (bal : bytes -> bytes -> Z) (ok : bool) (ts : list (bytes * target)) : list (bytes * target) * option bytes :=
  match ts with
  | [] => ([], None)
  | (o, t) :: ts' =>
    let b := bal (gUsage t) o in
    if (gLow t <=? b)%Z && (gLoad t <=? 0)%Z then let (r, w) := meetTarget bal ok ts' in ((o, t) :: r, w)
    else if (gHigh t <=? b)%Z then let (r, w) := meetTarget bal ok ts' in ((o, mkTarget (gUsage t) (gLow t) (gHigh t) 0) :: r, w)
    else
      let load := (gHigh t - b)%Z in
      ((o, mkTarget (gUsage t) (gLow t) (gHigh t) (if ok then load - 1 else load)) :: ts', Some o)
  end.
