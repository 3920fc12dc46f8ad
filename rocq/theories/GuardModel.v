(* The service guard's clients (serviceguard/client): the JSON-RPC calls to the key lookup, the issuers and the wallet server,
   the request and the unblinding of a token (packetproto), the verification and the reception of tokens, the verification
   keys, WalletToken up to its reissue, and the start and stop of the runner.

   The blind signatures come from github.com/ronperry/cryptoedge (jjm), which is not part of the repository: record [Blind].
   An answer of a server is the Go map that encoding/json made of it (the members, the last of two equal names counts), or an
   error. *)
From Verif Require Import Base Base64Model CryptoModel Maps SqlModel Asn1Model JsonModel KeyPoolModel WalletModel.
Delimit Scope string_scope with string.
Local Open Scope N_scope.

(* map[string]interface{}: names are compared exactly *)
Fixpoint member (name : bytes) (l : list (bytes * json)) : option json :=
  match l with
  | [] => None
  | (k, v) :: l' => match member name l' with Some w => Some w | None => if beq k name then Some v else None end
  end.
(* util/jsonclient/jsonclient.go:51-80 JSONRPCRequest: the members of the result or an error *)
Definition rpc := res (list (bytes * json)).
(* the type assertion v.(string) *)
Definition asStr (o : option json) : res bytes := match o with Some (JStr s) => Ok s | _ => Panic end.
Definition asBool (o : option json) : res bool := match o with Some (JBool b) => Ok b | _ => Panic end.
Definition has (o : option json) : bool := match o with Some _ => true | None => false end.
Definition isStr (o : option json) : bool := match o with Some (JStr _) => true | _ => false end.
Definition isNum (o : option json) : bool := match o with Some (JNum _) => true | _ => false end.
Definition b64res (s : bytes) : res bytes := match b64dec s with Some d => Ok d | None => Err "illegal base64 data" end.

(* ------------------------------------------------------------------ *)
(* serviceguard/client/keylookup/impl.go:68-86 getKey *)
Definition lookupKeyRPC (ans : rpc) : res bytes :=
  do data <- ans;
  if has (member (str "Key") data) then do s <- asStr (member (str "Key") data); b64res s
  else Err "keylookup: bad RPC parameters".
(* serviceguard/client/keylookup/impl.go:55-65 GetKey; the key ID asked for is not compared with the answer *)
Definition getKeyRPC (ans : rpc) : res pubKey := do d <- lookupKeyRPC ans; keyUnmarshal d.
(* strings.Split(s, ", ") *)
Fixpoint splitComma (s : bytes) : list bytes :=
  match s with
  | [] => [[]]
  | c :: s' =>
    let go := match splitComma s' with w :: ws => (c :: w) :: ws | [] => [[c]] end in
    match s' with d :: s'' => if (c =? 44) && (d =? 32) then [] :: splitComma s'' else go | [] => go end
  end.
(* serviceguard/client/keylookup/impl.go:149-159: each part is decoded and copied into an array of 32 bytes *)
Fixpoint decodeKeys (parts : list bytes) : res (list bytes) :=
  match parts with
  | [] => Ok []
  | p :: ps => match hexdec p with None => Err "encoding/hex: invalid byte" | Some d => do l <- decodeKeys ps; Ok (arrN 32 d :: l) end
  end.
(* serviceguard/client/keylookup/impl.go:111-161 GetVerifyList; [root] is TrustRoot, nil unless it was configured *)
Definition getVerifyList (C : Crypto) (root : option bytes) (ans : rpc) : res (list bytes) :=
  do data <- ans;
  if negb (has (member (str "PublicKey") data)) then Err "keylookup: bad RPC parameters"
  else if negb (has (member (str "Signature") data)) then Err "keylookup: bad RPC parameters"
  else if negb (has (member (str "KeyList") data)) then Err "keylookup: bad RPC parameters"
  else
    do pks <- asStr (member (str "PublicKey") data);
    match hexdec pks with
    | None => Err "keylookup: bad RPC parameters"
    | Some pk =>
      match root with
      | None => Panic
      | Some r =>
        if negb (beq (arrN 32 pk) r) then Err "keylookup: bad signer"
        else
          do sigs <- asStr (member (str "Signature") data);
          match hexdec sigs with
          | None => Err "keylookup: bad RPC parameters"
          | Some sig =>
            do kl <- asStr (member (str "KeyList") data);
            if negb ((lenN sig =? 64) && edverify C r kl sig) then Err "keylookup: bad signature"
            else decodeKeys (splitComma kl)
          end
      end
    end.

(* ------------------------------------------------------------------ *)
(* serviceguard/client/guardrpc/client.go:51-63 pubKeyToURL for a template https://HOST PATH; serviceguard/common/constants/constants.go:16-18 *)
Definition pubKeyToURL (host path pk : bytes) (internal : bool) : bytes :=
  let thost := if internal then str "int" else [] in
  let tpath := if internal then str "int/" else [] in
  let h := hexenc pk in str "https://" ++ takeN 48 h ++ thost ++ host ++ path ++ tpath ++ h.
(* serviceguard/client/guardrpc/client.go:66-85 GetParams, 88-108 GetParamsInternal *)
Definition getParamsRPC (ans : rpc) : res bytes :=
  do data <- ans;
  if has (member (str "Packet") data) then do s <- asStr (member (str "Packet") data); b64res s
  else Err "guardrpc: bad RPC parameters".
(* serviceguard/client/guardrpc/client.go:111-127 Spend *)
Definition spendRPC (ans : rpc) : res bool :=
  do data <- ans;
  if has (member (str "Status") data) then asBool (member (str "Status") data) else Err "guardrpc: bad RPC parameters".
(* serviceguard/client/guardrpc/client.go:130-157 Reissue, 160-195 Issue *)
Definition reissueRPC (ans : rpc) : res (bytes * bytes) :=
  do data <- ans;
  if negb (has (member (str "Packet") data)) then Err "guardrpc: bad RPC parameters"
  else if negb (has (member (str "PubkeyUsed") data)) then Err "guardrpc: bad RPC parameters"
  else
    do s <- asStr (member (str "Packet") data);
    do packet <- b64res s;
    do u <- asStr (member (str "PubkeyUsed") data);
    do used <- b64res u;
    Ok (packet, used).
(* serviceguard/client/walletrpc/client.go:141-179 getToken, after the request; "PubKeyUsed" is asserted without a test *)
Definition walletTokenRPC (ans : rpc) : res (bytes * bytes * bytes) :=
  do data <- ans;
  if negb (isStr (member (str "Token") data)) then Err "walletrpc: bad RPC parameters"
  else if negb (isStr (member (str "Params") data)) then Err "walletrpc: bad RPC parameters"
  else
    do t <- asStr (member (str "Token") data);
    match b64dec t with
    | None => Err "walletrpc: bad RPC parameters"
    | Some tok =>
      do p <- asStr (member (str "Params") data);
      match b64dec p with
      | None => Err "walletrpc: bad RPC parameters"
      | Some params =>
        do u <- asStr (member (str "PubKeyUsed") data);
        match b64dec u with None => Err "walletrpc: bad RPC parameters" | Some used => Ok (tok, params, used) end
      end
    end.
(* serviceguard/client/walletrpc/client.go:76-113 getBalance, after the request; the numbers as they were written *)
Definition walletBalanceRPC (ans : rpc) : res (bytes * bytes * bytes) :=
  do data <- ans;
  match member (str "SubscriptionTokens") data, member (str "PrepayTokens") data, member (str "LastSubscribeLoad") data with
  | Some (JNum a), Some (JNum b), Some (JNum c) => Ok (a, b, c)
  | _, _, _ => Err "walletrpc: bad RPC parameters"
  end.

(* ------------------------------------------------------------------ *)
(* Blind signatures: a public key is a point, a clear signature two coordinates and two numbers (see [getSignature]). *)
Definition point := (N * N)%type.
Definition csig := (N * N * N * N)%type.
Record Blind := {
  bParams : bytes -> res (bytes * bytes * bool);    (* serviceguard/common/types/types.go:61 asn1.Unmarshal of Params: key, public parameters, CanReissue *)
  bBlind : point -> bytes -> bytes -> bytes -> res (bytes * bytes);  (* Blind: key, parameters, message, randomness; factors and blind message *)
  bUnblind : point -> bytes -> bytes -> bytes -> res csig;           (* Unblind: key, factors, message, blind signature *)
  bVerify : point -> csig -> bytes -> res bool                       (* Verify: (bool, error) *)
}.
Definition pkPoint (k : pubKey) : point := (pkX k, pkY k).
(* serviceguard/common/types/types.go:59-70 UnmarshalParams, without the private parameters *)
Definition unmarshalParams (B : Blind) (d : bytes) : res (pubKey * bytes * bool) :=
  do (kd, pub, can) <- bParams B d; do k <- keyUnmarshal kd; Ok (k, pub, can).
(* serviceguard/common/types/types.go:147-159 ReissuePacketPrivate *)
Record private := mkPriv { vKey : bytes; vFactors : bytes; vToken : bytes; vHash : bytes; vReq : bytes; vCan : bool }.
Definition privMarshal (v : private) : option bytes :=
  derMarshal [DOct (vKey v); DOct (vFactors v); DOct (vToken v); DOct (vHash v); DOct (vReq v); DBool (vCan v)].
Definition privUnmarshal (d : bytes) : res private :=
  do l <- derUnmarshal [TOct; TOct; TOct; TOct; TOct; TBool] d;
  match l with [DOct k; DOct f; DOct t; DOct h; DOct r; DBool c] => Ok (mkPriv k f t h r c) | _ => Panic end.
Definition optRes {A} (o : option A) : res A := match o with Some a => Ok a | None => Err "asn1: structure error" end.
(* serviceguard/client/packetproto/methods.go:31-48 NewToken; [rnd] the randomness of the token, [rnd2] of the blinding *)
Definition newBlindToken (C : Crypto) (B : Blind) (k : pubKey) (pub : bytes) (owner : option bytes) (rnd rnd2 : bytes) : res (bytes * bytes * token) :=
  match newToken (pkID k) owner rnd with
  | None => Err "client: token creation failed"
  | Some t => do (factors, msg) <- bBlind B (pkPoint k) pub (tokenHash C t) rnd2; Ok (msg, factors, t)
  end.
(* serviceguard/client/packetproto/methods.go:52-132 Reissue.  [lookup] is the outcome of Keypool.Lookup of the old token's key. *)
Definition protoReissue (C : Crypto) (B : Blind) (e : env) (old : bytes) (oldOwner newOwner : option bytes) (params rnd rnd2 : bytes) (p : pool)
    : res (bytes * private) * pool :=
  match tokenUnmarshal old with
  | Err s => (Err s, p)
  | Panic => (Panic, p)
  | Ok t =>
    match unmarshalParams B params with
    | Err s => (Err s, p)
    | Panic => (Panic, p)
    | Ok (k, pub, can) =>
      match lookupKey C e (arrN 32 (kID t)) p with
      | (Err s, p1) => (Err s, p1)
      | (Panic, p1) => (Panic, p1)
      | (Ok ok, p1) =>
        if negb (beq (pkUsage ok) (pkUsage k)) then (Err "client: parameters do not match token", p1)
        else if negb (beq (pkSigner ok) (pkSigner k)) then (Err "client: parameters do not match token", p1)
        else
          let (r, p2) := loadKey C (eNow e) k p1 in
          let go :=
            do (msg, factors, t') <- newBlindToken C B k pub newOwner rnd rnd2;
            do tokM <- optRes (tokenMarshal t);
            if isSome (snd (tokenProps t)) && negb (isSome oldOwner) then Err "client: signer missing but required"
            else
              let re := mkRe 0 tokM msg params in
              do req <- optRes (reissueMarshal re (packetSign C (reissueImage C re) oldOwner));
              do kM <- optRes (keyMarshal k);
              do tM <- optRes (tokenMarshal t');
              Ok (req, mkPriv kM factors tM (sha256 C (reissueImage C re)) req can) in
          match r with
          | Ok _ => (go, p2)
          | Err s => if String.eqb s errExists then (go, p2) else (Err s, p2)
          | Panic => (Panic, p2)
          end
      end
    end
  end.
(* serviceguard/client/packetproto/methods.go:135-162 Unblind; the boolean of Verify is dropped (line 154) *)
Definition unblind (C : Crypto) (B : Blind) (v : private) (signature : bytes) : res bytes :=
  do k <- keyUnmarshal (vKey v);
  do t <- tokenUnmarshal (vToken v);
  do (x, y, r, s) <- bUnblind B (pkPoint k) (vFactors v) (tokenHash C t) signature;
  do _ <- bVerify B (pkPoint k) (x, y, r, s) (tokenHash C t);
  optRes (tokenMarshal (addSignature x y r s t)).
(* serviceguard/client/packetproto/methods.go:165-171 Spend *)
Definition protoSpend (C : Crypto) (tok : bytes) (owner : option bytes) : res bytes :=
  optRes (derMarshal [DInt 1; DOct tok; DOct (packetSign C (spendImage C 1 tok) owner)]).

(* ------------------------------------------------------------------ *)
(* serviceguard/client/errors.go:36-43 lookupError with the table of 88-134: the errors of the servers that are final *)
Definition finalErrors : list String.string := [
  "walletserver: no such user"; "walletserver: bad token"; "walletserver: insufficient funds"; "keylookup: key not found";
  "issuer: parameter and Token usage mismatch"; "issuer: parameters have expired"; "issuer: wrong calltype"; "issuer: token double spend";
  "issuer: parameter double spend"; "issuer: bad package"; "issuer: owner signature verification failed"; "issuer: wrong issuer";
  "issuer: token expired"; "issuer: bad usage"; "issuer: bad issuer"; "issuer: bad signature in token"; "issuer: parameters were mixed"]%string.
Definition isFinal (s : String.string) : bool := existsb (String.eqb s) finalErrors.
Definition errFinal : String.string := "client: final serviceguard error"%string.
Definition errOffline : String.string := "client: offline"%string.
Definition errNotFound : String.string := "keypool: not found"%string.
Definition errNeedReissue : String.string := "client: token needs reissue to owner"%string.

(* serviceguard/client/clientlib.go:50-62 Client; the runner is modelled below *)
Record client := mkCl { cOnline : bool; cKey : bytes; cPool : pool; cStore : store; cLast : option String.string }.
Definition withPool (p : pool) (c : client) : client := mkCl (cOnline c) (cKey c) p (cStore c) (cLast c).
Definition withStore (s : store) (c : client) : client := mkCl (cOnline c) (cKey c) (cPool c) s (cLast c).
Definition withLast (s : option String.string) (c : client) : client := mkCl (cOnline c) (cKey c) (cPool c) (cStore c) s.
Definition withOnline (b : bool) (c : client) : client := mkCl b (cKey c) (cPool c) (cStore c) (cLast c).

(* serviceguard/client/clientlib.go:115-119 splitKey: the public half of the 64 bytes *)
Definition walletPub (c : client) : bytes := arrN 32 (dropN 32 (cKey c)).
(* serviceguard/common/signkeys/keys.go:31 and 50-55 New, as called in serviceguard/client/packetproto/client.go:42: no usage, no keys *)
Definition clientGen : generator := mkGen [] 2592000 None None.
(* serviceguard/client/clientlib.go:65-82 New, serviceguard/client/packetproto/client.go:38-54: a new key pool, into which the
   stored keys are loaded before any verification key is known (serviceguard/common/keypool/keydb/dbstorage.go:164-187 loadFunc) *)
Definition newClient (C : Crypto) (now : Z) (files : list (option bytes)) (key : bytes) (s : store) : res client :=
  let (r, p) := loadFiles C now files (newPool clientGen) in
  match r with Ok _ => Ok (mkCl false key p s None) | Err e => Err e | Panic => Panic end.
(* serviceguard/client/packetproto/client.go:57-59 AddVerifyKey *)
Definition trustKeys (ks : list bytes) (p : pool) : pool := fold_left (fun p k => addVerifyKey k p) ks p.
(* serviceguard/client/clientlib.go:125-150 GetVerifyKeys *)
Definition cVerifyKeys (C : Crypto) (root : option bytes) (ans : rpc) (c : client) : res unit * client :=
  let offline c :=
    let (ks, s) := getVerifyKeys (cStore c) in withPool (trustKeys ks (cPool c)) (withStore s c) in
  if cOnline c then
    match getVerifyList C root ans with
    | Ok ks => (Ok tt, withPool (trustKeys ks (cPool c)) (withStore (setVerifyKeys ks (cStore c)) c))
    | Err s => (Err errRetry, offline (withLast (Some s) c))
    | Panic => (Panic, c)
    end
  else (Ok tt, offline c).
(* serviceguard/client/clientlib.go:91-94 GoOnline: the keys are asked for before the client is online; 98-102 GoOffline *)
Definition goOnline (C : Crypto) (root : option bytes) (ans : rpc) (c : client) : res unit * client :=
  match cVerifyKeys C root ans c with (Panic, c) => (Panic, c) | (_, c) => (Ok tt, withOnline true c) end.
Definition goOffline (c : client) : client := withOnline false c.
(* serviceguard/client/verify.go:60-90 getPubKey *)
Definition getPubKey (C : Crypto) (e : env) (ans : rpc) (id : bytes) (c : client) : res pubKey * client :=
  match lookupKey C e id (cPool c) with
  | (Ok k, p) => (Ok k, withPool p c)
  | (Panic, p) => (Panic, withPool p c)
  | (Err s, p) =>
    let c := withLast (Some s) (withPool p c) in
    if negb (String.eqb s errNotFound) then (Err errFatal, c)
    else if negb (cOnline c) then (Err errOffline, c)
    else match getKeyRPC ans with
    | Ok k =>
      match loadKey C (eNow e) k (cPool c) with
      | (Ok _, p) => (Ok k, withPool p c)
      | (Err s, p) => if String.eqb s errExists then (Ok k, withPool p c) else (Err errFatal, withLast (Some s) (withPool p c))
      | (Panic, p) => (Panic, withPool p c)
      end
    | Err s => (Err (if isFinal s then errFinal else errRetry), withLast (Some s) c)
    | Panic => (Panic, c)
    end
  end.
(* serviceguard/client/verify.go:17-56 Verify.  Simplified: LastError keeps its value where Go writes nil. *)
Definition cVerify (C : Crypto) (B : Blind) (e : env) (ans : rpc) (tok : bytes) (c : client) : res tokenEntry * client :=
  match tokenUnmarshal tok with
  | Err s => (Err errFatal, withLast (Some s) c)
  | Panic => (Panic, c)
  | Ok t =>
    let (id, owner) := tokenProps t in
    match getPubKey C e ans id c with
    | (Err s, c) => (Err s, c)
    | (Panic, c) => (Panic, c)
    | (Ok k, c) =>
      if (pkExp k <? eNow e)%Z then (Err errFinal, withLast (Some "client: token expired"%string) c)
      else match bVerify B (pkPoint k) (getSignature t) (tokenHash C t) with
      | Ok true => (Ok (mkTE (tokenHash C t) tok None owner None false false (pkUsage k) (pkExp k) None None None None), c)
      | Panic => (Panic, c)
      | _ => (Err errFinal, c)
      end
    end
  end.
(* serviceguard/client/receive.go:9-30 ReceiveToken; a missing owner is dereferenced in line 19, the error of SetToken is dropped *)
Definition receiveToken (C : Crypto) (B : Blind) (e : env) (ans : rpc) (usage tok : bytes) (c : client) : res unit * client :=
  match cVerify C B e ans tok c with
  | (Err s, c) => (Err s, c)
  | (Panic, c) => (Panic, c)
  | (Ok te, c) =>
    if negb (beq (tUsage te) usage) then (Err errFinal, withLast (Some "client: unexpected usage"%string) c)
    else match tPub te with
    | None => (Panic, c)
    | Some o =>
      if negb (beq o (walletPub c)) then (Err errFinal, withLast (Some "client: unexpected owner"%string) c)
      else match getToken (tHash te) (-1) (stDB (cStore c)) with
      | Ok _ => (Err errFinal, withLast (Some "client: token is already known"%string) c)
      | Panic => (Panic, c)
      | Err _ =>
        match setToken te (stDB (cStore c)) with
        | Ok db => (Ok tt, withStore (mkStore db (stCache (cStore c))) c)
        | Err _ => (Ok tt, c)
        | Panic => (Panic, c)
        end
      end
    end
  end.
(* serviceguard/client/walletserver.go:20-82 WalletToken up to its call of ReissueToken, without the network part
   (85-122): [got] is what the wallet server sent.  The result: the hash, and whether ReissueToken follows. *)
Definition walletToken (C : Crypto) (B : Blind) (e : env) (owner : option bytes) (got : bytes * bytes * bytes) (c : client) : res (bytes * bool) * client :=
  let '(tok, params, used) := got in
  match tokenUnmarshal tok with
  | Err s => (Err errFatal, withLast (Some s) c)
  | Panic => (Panic, c)
  | Ok t =>
    match keyUnmarshal used with
    | Err s => (Err errFatal, withLast (Some s) c)
    | Panic => (Panic, c)
    | Ok k =>
      let (r, p) := loadKey C (eNow e) k (cPool c) in
      let c := withPool p c in
      let go :=
        match (match params with [] => Ok true | _ => do (_, _, can) <- unmarshalParams B params; Ok can end) with
        | Err s => (Err errFatal, withLast (Some s) c)
        | Panic => (Panic, c)
        | Ok renewable =>
          let te := mkTE (tokenHash C t) tok (Some params) (Some (walletPub c)) (Some (cKey c)) renewable true (pkUsage k) (pkExp k) None None None None in
          match setToken te (stDB (cStore c)) with
          | Err s => (Err errFatal, withLast (Some s) c)
          | Panic => (Panic, c)
          | Ok db =>
            let c := withStore (mkStore db (stCache (cStore c))) c in
            (Ok (tHash te, isSome owner || renewable), c)
          end
        end in
      match r with
      | Ok _ => go
      | Err s => if String.eqb s errExists then go else (Err errFatal, withLast (Some s) c)
      | Panic => (Panic, c)
      end
    end
  end.
(* serviceguard/client/reissue.go:125-179: what is stored after the issuer answered [reply] signed with the key [used];
   [te] is the old entry, [blind] its blinding factors *)
Definition reissueDone (C : Crypto) (B : Blind) (e : env) (te : tokenEntry) (blind reply used : bytes) (c : client) : res bytes * client :=
  let fatal s c := (Err errFatal, withLast (Some s) c) in
  let c := withStore (mkStore (delToken (tHash te) (stDB (cStore c))) (stCache (cStore c))) c in
  match keyUnmarshal used with
  | Err s => fatal s c
  | Panic => (Panic, c)
  | Ok k =>
    let (r, p) := loadKey C (eNow e) k (cPool c) in
    let c := withPool p c in
    let go :=
      match (do v <- privUnmarshal blind; unblind C B v reply) with
      | Err s => fatal s c
      | Panic => (Panic, c)
      | Ok tok =>
        match tokenUnmarshal tok with
        | Err s => fatal s c
        | Panic => (Panic, c)
        | Ok t =>
          match lookupKey C e (fst (tokenProps t)) (cPool c) with
          | (Err s, p) => fatal s (withPool p c)
          | (Panic, p) => (Panic, withPool p c)
          | (Ok nk, p) =>
            let c := withPool p c in
            let new := mkTE (tokenHash C t) tok None (tNewPub te) (tNewPriv te) (tRenew te) (tRenew te) (pkUsage nk) (pkExp nk) None None None None in
            match setToken new (stDB (cStore c)) with
            | Err s => fatal s c
            | Panic => (Panic, c)
            | Ok db => (Ok (tHash new), withStore (mkStore db (stCache (cStore c))) c)
            end
          end
        end
      end in
    match r with
    | Ok _ => go
    | Err s => if String.eqb s errExists then go else fatal s c
    | Panic => (Panic, c)
    end
  end.
(* serviceguard/client/packetproto/methods.go:52-132 as called from serviceguard/client/reissue.go:96: only the key pool changes *)
Definition reissueAsk (C : Crypto) (B : Blind) (e : env) (old : bytes) (oldOwner newOwner : option bytes) (params rnd rnd2 : bytes) (c : client) : res (bytes * private) * client :=
  let (r, p) := protoReissue C B e old oldOwner newOwner params rnd rnd2 (cPool c) in (r, withPool p c).

(* everything a client does with its keys, in any order *)
Inductive cop :=
| OOnline (ans : rpc) | OOffline | OKeys (ans : rpc)
| OVerify (e : env) (ans : rpc) (tok : bytes)
| OReceive (e : env) (ans : rpc) (usage tok : bytes)
| OWallet (e : env) (owner : option bytes) (got : bytes * bytes * bytes)
| OAsk (e : env) (old : bytes) (oldOwner newOwner : option bytes) (params rnd rnd2 : bytes)
| ODone (e : env) (te : tokenEntry) (blind reply used : bytes).
Definition cstep (C : Crypto) (B : Blind) (root : option bytes) (c : client) (o : cop) : client :=
  match o with
  | OOnline ans => snd (goOnline C root ans c)
  | OOffline => goOffline c
  | OKeys ans => snd (cVerifyKeys C root ans c)
  | OVerify e ans tok => snd (cVerify C B e ans tok c)
  | OReceive e ans usage tok => snd (receiveToken C B e ans usage tok c)
  | OWallet e owner got => snd (walletToken C B e owner got c)
  | OAsk e old oo no params rnd rnd2 => snd (reissueAsk C B e old oo no params rnd rnd2 c)
  | ODone e te blind reply used => snd (reissueDone C B e te blind reply used c)
  end.
Definition crun (C : Crypto) (B : Blind) (root : option bytes) (ops : list cop) (c : client) : client := fold_left (cstep C B root) ops c.

(* ------------------------------------------------------------------ *)
(* The runner.  serviceguard/client/runner.go:27-74 runner, 22-25 StopRunner, 76-110 meetTarget (which holds runnerLock),
   serviceguard/client/clientlib.go:222-226 SetTarget; the channel stopChan (clientlib.go:77) has no buffer, so that its
   length is always 0.  One step of a thread is one operation on the lock, the flag or the channel. *)
Inductive rpc_pc :=
| RStart                 (* a goroutine of Runner before runnerLock.Lock (line 29) *)
| RTest                  (* it holds the lock, line 30 *)
| RReturned              (* it returned in line 31: the lock is still held *)
| RSet                   (* line 33 *)
| RLoop                  (* the loop, before line 37 *)
| RRecv                  (* line 38, waiting to receive from stopChan *)
| RExit                  (* line 39 *)
| RWant                  (* meetTarget before its Lock (line 79) *)
| RMeet                  (* meetTarget holding the lock *)
| TStart | TSet | TDone  (* SetTarget *)
| SSend | SSent.         (* StopRunner: before and after the send *)
Record rstate := mkR { rThreads : list rpc_pc; rHeld : bool; rRunning : bool }.
(* len(c.stopChan) of a channel made by make(chan bool) *)
Definition chanLen (s : rstate) : nat := 0.
Inductive rstep : rstate -> rstate -> Prop :=
| XLock a b ru : rstep (mkR (a ++ RStart :: b) false ru) (mkR (a ++ RTest :: b) true ru)
| XAgain a b h : rstep (mkR (a ++ RTest :: b) h true) (mkR (a ++ RReturned :: b) h true)
| XFirst a b h : rstep (mkR (a ++ RTest :: b) h false) (mkR (a ++ RSet :: b) h true)
| XUnlock a b h ru : rstep (mkR (a ++ RSet :: b) h ru) (mkR (a ++ RLoop :: b) false ru)
| XStop a b h ru : (0 < chanLen (mkR (a ++ RLoop :: b) h ru))%nat -> rstep (mkR (a ++ RLoop :: b) h ru) (mkR (a ++ RRecv :: b) h ru)
| XWork a b h ru : chanLen (mkR (a ++ RLoop :: b) h ru) = 0%nat -> rstep (mkR (a ++ RLoop :: b) h ru) (mkR (a ++ RWant :: b) h ru)
| XMeet a b ru : rstep (mkR (a ++ RWant :: b) false ru) (mkR (a ++ RMeet :: b) true ru)
| XMet a b h ru : rstep (mkR (a ++ RMeet :: b) h ru) (mkR (a ++ RLoop :: b) false ru)
| XTarget a b ru : rstep (mkR (a ++ TStart :: b) false ru) (mkR (a ++ TSet :: b) true ru)
| XTargetDone a b h ru : rstep (mkR (a ++ TSet :: b) h ru) (mkR (a ++ TDone :: b) false ru)
(* an unbuffered send meets a receiver *)
| XSend a b c h ru : rstep (mkR (a ++ RRecv :: b ++ SSend :: c) h ru) (mkR (a ++ RExit :: b ++ SSent :: c) h ru)
| XSend' a b c h ru : rstep (mkR (a ++ SSend :: b ++ RRecv :: c) h ru) (mkR (a ++ SSent :: b ++ RExit :: c) h ru).
Inductive rreach : rstate -> rstate -> Prop :=
| YRefl s : rreach s s
| YStep s t u : rreach s t -> rstep t u -> rreach s u.
