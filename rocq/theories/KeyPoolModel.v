(* Signing keys of the service guard, the key pool, its storage, tokens and packets
   (serviceguard/common/signkeys, keypool, keypool/keydb, keypool/keydir, token, types). *)
From Verif Require Import Base Base64Model CryptoModel Maps Asn1Model.
Delimit Scope string_scope with string.
Local Open Scope N_scope.

(* big.Int.Bytes: minimal big-endian form of a non-negative number; SetBytes is [be_dec] *)
Definition bigBytes (n : N) : bytes := be (N.to_nat ((N.size n + 7) / 8)) n.
(* copy into a fixed array of n bytes *)
Definition arrN (n : N) (b : bytes) : bytes := takeN n (b ++ repeat 0 (N.to_nat n)).
(* uint64(int64) *)
Definition u64z (z : Z) : N := Z.to_N (z mod 2 ^ 64).

(* serviceguard/common/signkeys/keys.go:64-71 PublicKey; the coordinates are non-negative numbers *)
Record pubKey := mkPK { pkID : bytes; pkX : N; pkY : N; pkExp : Z; pkUsage : bytes; pkSigner : bytes; pkSig : bytes }.
(* serviceguard/common/signkeys/keys.go:85-96 Marshal; None: usage is not valid UTF-8 *)
Definition keyFields (k : pubKey) : list dv :=
  [DOct (pkID k); DOct (bigBytes (pkX k)); DOct (bigBytes (pkY k)); DInt (pkExp k); DStr (pkUsage k); DOct (pkSigner k); DOct (pkSig k)].
Definition keyMarshal (k : pubKey) : option bytes := derMarshal (keyFields k).
(* serviceguard/common/signkeys/keys.go:99-116 Unmarshal *)
Definition keyUnmarshal (d : bytes) : res pubKey :=
  do l <- derUnmarshal [TOct; TOct; TOct; TInt64; TStr; TOct; TOct] d;
  match l with
  | [DOct i; DOct x; DOct y; DInt e; DStr u; DOct sg; DOct s] => Ok (mkPK (arrN 32 i) (be_dec x) (be_dec y) e u (arrN 32 sg) (arrN 64 s))
  | _ => Panic
  end.
(* serviceguard/common/signkeys/keys.go:128-138 CalcKeyID *)
Definition keyImage (k : pubKey) : bytes :=
  bigBytes (pkX k) ++ bigBytes (pkY k) ++ be 8 (u64z (pkExp k)) ++ [58] ++ pkUsage k ++ [58] ++ pkSigner k.
Definition calcKeyID (C : Crypto) (k : pubKey) : bytes := sha256 C (keyImage k).
(* serviceguard/common/signkeys/keys.go:119-125 Verify *)
Definition keyVerify (C : Crypto) (k : pubKey) (signer : bytes) : bool :=
  beq (calcKeyID C k) (pkID k) && edverify C signer (calcKeyID C k) (pkSig k).
(* serviceguard/common/signkeys/keys.go:40-46 KeyGenerator; the private key determines nothing else *)
Record generator := mkGen { nUsage : bytes; nExpire : Z; nPub : option bytes; nPriv : option bytes }.
(* serviceguard/common/signkeys/keys.go:141-163 GenKey; [x y] is the generated curve point, None a failing random source;
   a missing public key is dereferenced.  The private scalar is not modelled.  Simplified: no int64 overflow of the expiry. *)
Definition genKey (C : Crypto) (g : generator) (now : Z) (pt : option (N * N)) : res pubKey :=
  match nPriv g with
  | None => Err "keygen: no signer"
  | Some priv =>
    match pt with
    | None => Err "rand"
    | Some (x, y) =>
      match nPub g with
      | None => Panic
      | Some pub =>
        let k := mkPK [] x y (now + nExpire g) (nUsage g) pub [] in
        let id := calcKeyID C k in
        Ok (mkPK id x y (now + nExpire g) (nUsage g) pub (edsign C priv id))
      end
    end
  end.

(* serviceguard/common/keypool/generator.go:45-63 KeyPool *)
Record pool := mkPool { oGen : generator; oKeys : map_ pubKey; oTrust : list bytes; oCurrent : option pubKey; oPrev : option pubKey }.
(* the environment of one call: the clock, the registered storage callbacks and the random source.  [eFetch] is None if no
   fetch callback is registered; [eWrite] is true if the write callback (if any) succeeds. *)
Record env := mkEnv { eNow : Z; eFetch : option (bytes -> res bytes); eWrite : bool; ePoint : option (N * N) }.
(* serviceguard/common/keypool/generator.go:66-73 New *)
Definition newPool (g : generator) : pool := mkPool g [] [] None None.
(* serviceguard/common/keypool/generator.go:76-80 AddVerifyKey *)
Definition addVerifyKey (key : bytes) (p : pool) : pool := mkPool (oGen p) (oKeys p) (key :: oTrust p) (oCurrent p) (oPrev p).
(* serviceguard/common/keypool/generator.go:94-101 HasVerifyKey *)
Definition hasVerifyKey (key : bytes) (p : pool) : bool := existsb (beq key) (oTrust p).
(* serviceguard/common/keypool/generator.go:130-138 lookup *)
Definition lookup_ (now : Z) (id : bytes) (p : pool) : res pubKey :=
  match mget id (oKeys p) with
  | Some d => if (now <? pkExp d)%Z then Ok d else Err "keypool: expired key"
  | None => Err "keypool: not found"
  end.
(* serviceguard/common/keypool/generator.go:203-225 loadKey.  On "key exists" the key ID is returned with the error. *)
Definition errExists : String.string := "keypool: key exists"%string.
Definition loadKey (C : Crypto) (now : Z) (k : pubKey) (p : pool) : res bytes * pool :=
  if negb (beq (nUsage (oGen p)) []) && negb (beq (pkUsage k) (nUsage (oGen p))) then (Err "keypool: bad usage setting of key", p)
  else if (pkExp k <? now)%Z then (Err "keypool: expired key", p)
  else if negb (hasVerifyKey (pkSigner k) p) then (Err "keypool: bad signature", p)
  else if negb (keyVerify C k (pkSigner k)) then (Err "keypool: bad signature", p)
  else match mget (pkID k) (oKeys p) with
       | Some _ => (Err errExists, p)
       | None => (Ok (pkID k), mkPool (oGen p) (mset (pkID k) k (oKeys p)) (oTrust p) (oCurrent p) (oPrev p))
       end.
(* serviceguard/common/keypool/generator.go:104-127 Lookup *)
Definition lookupKey (C : Crypto) (e : env) (id : bytes) (p : pool) : res pubKey * pool :=
  match lookup_ (eNow e) id p, mget id (oKeys p), eFetch e with
  | _, None, Some fetch =>
    match fetch id with
    | Ok d =>
      match keyUnmarshal d with
      | Ok k =>
        let (r, p') := loadKey C (eNow e) k p in
        match r with
        | Panic => (Panic, p')
        | Err s => if String.eqb s errExists then (if beq (pkID k) id then (Ok k, p') else (Err "keypool: not found", p')) else (Err "keypool: not found", p')
        | Ok _ => if beq (pkID k) id then (Ok k, p') else (Err "keypool: not found", p')
        end
      | Err s => (Err s, p)
      | Panic => (Panic, p)
      end
    | Err s => (Err s, p)
    | Panic => (Panic, p)
    end
  | r, _, _ => (r, p)
  end.
(* serviceguard/common/keypool/generator.go:236-249 WriteKey *)
Definition writeKey (e : env) (k : pubKey) : res unit :=
  match keyMarshal k with None => Err "asn1: string not valid UTF-8" | Some _ => if eWrite e then Ok tt else Err "storage" end.
(* serviceguard/common/keypool/generator.go:157-188 Current; Go's / truncates *)
Definition current (C : Crypto) (e : env) (p : pool) : res (pubKey * option pubKey) * pool :=
  match nPriv (oGen p) with
  | None => (Err "keypool: not a generator", p)
  | Some _ =>
    let fresh := match oCurrent p with None => true | Some k => (pkExp k <? eNow e - Z.quot (nExpire (oGen p)) 2)%Z end in
    if fresh then
      match genKey C (oGen p) (eNow e) (ePoint e) with
      | Ok k =>
        match writeKey e k with
        | Ok _ =>
          let prev := match oCurrent p with Some c => Some c | None => oPrev p end in
          (Ok (k, prev), mkPool (oGen p) (mset (pkID k) k (oKeys p)) (oTrust p) (Some k) prev)
        | Err s => (Err s, p)
        | Panic => (Panic, p)
        end
      | Err s => (Err s, p)
      | Panic => (Panic, p)
      end
    else match oCurrent p with Some k => (Ok (k, oPrev p), p) | None => (Panic, p) end
  end.
(* serviceguard/common/keypool/keydir/filestorage.go:41-60 loadKeysFromDir: each element is the content of a file, None a read error.
   Errors of LoadKey are ignored. *)
Fixpoint loadFiles (C : Crypto) (now : Z) (files : list (option bytes)) (p : pool) : res unit * pool :=
  match files with
  | [] => (Ok tt, p)
  | None :: _ => (Err "read", p)
  | Some d :: files' =>
    match keyUnmarshal d with
    | Ok k => loadFiles C now files' (snd (loadKey C now k p))
    | Err s => (Err s, p)
    | Panic => (Panic, p)
    end
  end.

(* serviceguard/common/keypool/keydb/dbstorage.go:25-35: the table keypool, UNIQUE (KeyID) *)
Definition keyTable := map_ (bytes * bytes).
(* serviceguard/common/keypool/keydb/dbstorage.go:128-138 writeFunc; [down]: the database refuses the statement.
   Both branches return nil. *)
Definition dbInsert (down : bool) (id usage data : bytes) (t : keyTable) : res unit * keyTable :=
  if down then (Err "mysql", t) else match mget id t with Some _ => (Err "Duplicate entry", t) | None => (Ok tt, mset id (usage, data) t) end.
Definition dbWrite (down : bool) (keyid usage data : bytes) (t : keyTable) : res unit * keyTable :=
  let (err, t') := dbInsert down (hexenc keyid) usage (b64enc data) t in
  match err with Ok _ => (err, t') | _ => (Ok tt, t') end.
(* serviceguard/common/keypool/keydb/dbstorage.go:141-156 Fetch *)
Definition dbFetch (keyid : bytes) (t : keyTable) : res bytes :=
  match mget (hexenc keyid) t with
  | None => Err "keypool: not found"
  | Some (_, enc) => match b64dec enc with Some d => Ok d | None => Err "illegal base64 data" end
  end.

(* ------------------------------------------------------------------ *)
(* Threads and the RWMutex.  serviceguard/common/keypool/generator.go:104-127 Lookup takes the read lock for all of its body,
   including the assignment to kp.keys in loadKey (223) when a key was fetched; 191-195 LoadKey and 157-188 Current take the write lock. *)
Inductive call := CLookup | CWrite.
Inductive pc := PStart (c : call) | PReading | PStoring (c : call) | PDone.
Definition threads := list pc.
Definition reader (p : pc) : bool := match p with PReading | PStoring CLookup => true | _ => false end.
Definition writer (p : pc) : bool := match p with PStoring CWrite => true | _ => false end.
(* sync.RWMutex: RLock waits for writers, Lock waits for readers and writers *)
Definition canRLock (t : threads) : bool := negb (existsb writer t).
Definition canLock (t : threads) : bool := negb (existsb writer t) && negb (existsb reader t).
(* one step of one thread; [fetched]: a fetch callback is registered and delivered a valid key *)
Inductive tstep (fetching : bool) : threads -> threads -> Prop :=
| SRLock a b : canRLock (a ++ PStart CLookup :: b) = true -> tstep fetching (a ++ PStart CLookup :: b) (a ++ PReading :: b)
| SHit a b : tstep fetching (a ++ PReading :: b) (a ++ PDone :: b)
| SFetched a b : fetching = true -> tstep fetching (a ++ PReading :: b) (a ++ PStoring CLookup :: b)
| SLock a b : canLock (a ++ PStart CWrite :: b) = true -> tstep fetching (a ++ PStart CWrite :: b) (a ++ PStoring CWrite :: b)
| SUnlock a b c : tstep fetching (a ++ PStoring c :: b) (a ++ PDone :: b).
Inductive treach (fetching : bool) : threads -> threads -> Prop :=
| RRefl t : treach fetching t t
| RStep t u v : treach fetching t u -> tstep fetching u v -> treach fetching t v.

(* ------------------------------------------------------------------ *)
(* serviceguard/common/token/types.go:34-44 Token; the four signature numbers are kept as bytes *)
Record token := mkTok { kID : bytes; kFlag : bool; kNonce : bytes; kOwner : bytes; kRX : bytes; kRY : bytes; kS : bytes; kR : bytes }.
(* serviceguard/common/token/types.go:47-69 New; [rnd] is the random source *)
Definition newToken (id : bytes) (owner : option bytes) (rnd : bytes) : option token :=
  match owner with
  | Some o => if lenN rnd <? 16 then None else Some (mkTok (arrN 32 id) true (takeN 16 rnd) (arrN 32 o) [] [] [] [])
  | None => if lenN rnd <? 48 then None else Some (mkTok (arrN 32 id) false (takeN 16 (dropN 32 rnd)) (takeN 32 rnd) [] [] [] [])
  end.
(* serviceguard/common/token/types.go:72-83 Hash *)
Definition tokenImage (t : token) : bytes := kID t ++ [if kFlag t then 1 else 0] ++ kNonce t ++ kOwner t.
Definition tokenHash (C : Crypto) (t : token) : bytes := sha256 C (tokenImage t).
(* serviceguard/common/token/types.go:86-96 Properties *)
Definition tokenProps (t : token) : bytes * option bytes := (arrN 32 (kID t), if kFlag t then Some (arrN 32 (kOwner t)) else None).
(* serviceguard/common/token/types.go:104-116 Marshal, Unmarshal *)
Definition tokenMarshal (t : token) : option bytes :=
  derMarshal [DOct (kID t); DBool (kFlag t); DOct (kNonce t); DOct (kOwner t); DOct (kRX t); DOct (kRY t); DOct (kS t); DOct (kR t)].
Definition tokenUnmarshal (d : bytes) : res token :=
  do l <- derUnmarshal [TOct; TBool; TOct; TOct; TOct; TOct; TOct; TOct] d;
  match l with
  | [DOct i; DBool f; DOct n; DOct o; DOct x; DOct y; DOct s; DOct r] => Ok (mkTok i f n o x y s r)
  | _ => Panic
  end.
(* serviceguard/common/token/types.go:119-133 AddSignature, GetSignature *)
Definition addSignature (x y r s : N) (t : token) : token := mkTok (kID t) (kFlag t) (kNonce t) (kOwner t) (bigBytes x) (bigBytes y) (bigBytes s) (bigBytes r).
Definition getSignature (t : token) : N * N * N * N := (be_dec (kRX t), be_dec (kRY t), be_dec (kR t), be_dec (kS t)).

(* serviceguard/common/types/types.go:73-79 ReissuePacket (without its signature) and 174-178 SpendPacket *)
Record reissue := mkRe { rCall : Z; rToken : bytes; rBlind : bytes; rParams : bytes }.
Definition u32z (z : Z) : N := Z.to_N (z mod 2 ^ 32).
(* serviceguard/common/types/types.go:106-117 Image *)
Definition callBytes (c : Z) : bytes := be 4 (u32z c) ++ [0; 0; 0; 0].
Definition reissueImage (C : Crypto) (p : reissue) : bytes := sha256 C (callBytes (rCall p) ++ rToken p) ++ sha256 C (rBlind p) ++ sha256 C (rParams p).
(* serviceguard/common/types/types.go:181-186 Image of a SpendPacket *)
Definition spendImage (C : Crypto) (call : Z) (tok : bytes) : bytes := sha256 C (callBytes call ++ tok).
(* serviceguard/common/types/types.go:120-129 Sign: [0] without a key *)
Definition packetSign (C : Crypto) (image : bytes) (priv : option bytes) : bytes := match priv with None => [0] | Some k => edsign C k image end.
(* serviceguard/common/types/types.go:132-144 and 199-211 Verify; ed25519.Verify of a signature that is not 64 bytes long is false *)
Definition packetVerify (C : Crypto) (image sig : bytes) (pub : option bytes) : res unit :=
  match pub with
  | None => if lenN sig =? 1 then Ok tt else Err "types: signer needed for verification"
  | Some k => if (lenN sig =? 64) && edverify C k image sig then Ok tt else Err "types: bad signature"
  end.
(* the packets on the wire: 82-96 and 214-228 *)
Definition reissueMarshal (p : reissue) (sig : bytes) : option bytes := derMarshal [DInt (rCall p); DOct (rToken p); DOct (rBlind p); DOct (rParams p); DOct sig].
Definition reissueUnmarshal (d : bytes) : res (reissue * bytes) :=
  do l <- derUnmarshal [TInt32; TOct; TOct; TOct; TOct] d;
  match l with [DInt c; DOct t; DOct b; DOct q; DOct s] => Ok (mkRe c t b q, s) | _ => Panic end.
