(* The configuration client: configclient, sortedmap, roundrobin, cahash, and def.InitMute.

   Not modelled: the JSON decoding of a reply (a function argument), HTTP (the answer of a server is an argument),
   time-outs.  A Go map is the list of its entries, with distinct keys, in the order in which Go enumerates it. *)
From Verif Require Import Base Base64Model CryptoModel.
Local Open Scope N_scope.
Delimit Scope string_scope with string.

(* ------------------------------------------------------------------ *)
(* configclient/sortedmap/map.go:19-24 StringStruct, SortedMap *)
Definition entry := (bytes * bytes)%type.
(* Go's < on strings *)
Fixpoint blt (a b : bytes) : bool :=
  match a, b with
  | _, [] => false
  | [], _ :: _ => true
  | x :: a', y :: b' => if x <? y then true else if y <? x then false else blt a' b'
  end.
(* configclient/sortedmap/map.go:36-47, 62-64 Sort, Less.  The keys differ, so every sorting algorithm gives this result. *)
Fixpoint insertE (e : entry) (l : list entry) : list entry :=
  match l with [] => [e] | f :: l' => if blt (fst f) (fst e) then f :: insertE e l' else e :: l end.
Definition sortMap (m : list entry) : list entry := fold_right insertE [] m.
(* configclient/sortedmap/map.go:68-74 lenByte *)
Definition lenByte (d : bytes) : bytes := be 8 (lenN d) ++ d.
(* configclient/sortedmap/map.go:77-100 Image: what is hashed.  PutUint64 keeps the low 64 bits, as [be 8] does. *)
Definition imageBytes (so : list entry) : bytes :=
  let body := concat (map (fun e => lenByte (fst e) ++ lenByte (snd e)) so) in body ++ be 8 (lenN body).
Definition image (C : Crypto) (so : list entry) : bytes := sha512 C (imageBytes so).
(* configclient/sortedmap/map.go:103-108, 111-118: the message that is signed *)
Definition signedImage (C : Crypto) (signdate : N) (so : list entry) : bytes := image C so ++ be 8 signdate.
(* configclient/sortedmap/map.go:103-108 Sign *)
Definition signMap (C : Crypto) (signdate : N) (priv : bytes) (so : list entry) : bytes := edsign C priv (signedImage C signdate so).
(* copy into an array of 32 bytes *)
Definition arr32 (b : bytes) : bytes := takeN 32 (b ++ repeat 0 32%nat).
(* configclient/sortedmap/map.go:111-118 Verify *)
Definition verifyMap (C : Crypto) (signdate : N) (pub sig : bytes) (so : list entry) : bool := edverify C (arr32 pub) (signedImage C signdate so) sig.

(* configclient/sortedmap/signedmap.go:28-32 SignedMap *)
Record signedMap := mkSM { sConfig : list entry; sSig : bytes; sDate : N }.
Definition maxAge : N := 14400.
(* configclient/sortedmap/signedmap.go:34-39 diff *)
Definition diff (a b : N) : N := if b <? a then a - b else b - a.
(* uint64 of an int64 *)
Definition u64 (z : Z) : N := Z.to_N (z mod 2 ^ 64).
(* configclient/sortedmap/signedmap.go:62-69 GenerateCertificate, without the JSON encoding *)
Definition generate (C : Crypto) (now : Z) (priv : bytes) (m : list entry) : signedMap := mkSM m (signMap C (u64 now) priv (sortMap m)) (u64 now).
(* configclient/sortedmap/signedmap.go:72-87 Certify; [sm] is the result of Unmarshal *)
Definition certify (C : Crypto) (now : Z) (last : N) (pub : bytes) (sm : option signedMap) : res signedMap :=
  match sm with
  | None => Err "json"
  | Some sm =>
    if (0 <? last) && (sDate sm <? last) then Err "sortedmap: expired certificate replayed"
    else if maxAge <? diff (u64 now) (sDate sm) then Err "sortedmap: signature time wrong"
    else if negb (verifyMap C (sDate sm) pub (sSig sm) (sortMap (sConfig sm))) then Err "sortedmap: signature verification failed"
    else Ok sm
  end.

(* ------------------------------------------------------------------ *)
(* configclient/roundrobin/roundrobin.go:20-23 server *)
Record server := mkSrv { vPrio : Z; vUrl : bytes }.
(* ASCII white space; strings.Fields also splits at U+0085, U+00A0 and other Unicode spaces, not modelled *)
Definition space (c : N) : bool := (c =? 32) || ((9 <=? c) && (c <=? 13)).
(* strings.Fields *)
Fixpoint fieldsF (s : bytes) (cur : bytes) : list bytes :=
  match s with
  | [] => match cur with [] => [] | _ => [cur] end
  | c :: s' => if space c then match cur with [] => fieldsF s' [] | _ => cur :: fieldsF s' [] end else fieldsF s' (cur ++ [c])
  end.
Definition fields (s : bytes) : list bytes := fieldsF s [].
(* strings.Replace of one character by a space *)
Definition replaceC (x : N) (s : bytes) : bytes := map (fun c => if c =? x then 32 else c) s.
Definition digit (c : N) : bool := (48 <=? c) && (c <=? 57).
Definition decVal (s : bytes) : Z := fold_left (fun v c => (v * 10 + (Z.of_N c - 48))%Z) s 0%Z.
(* prio, _ := strconv.Atoi: 0 on a syntax error, the nearest int64 if out of range *)
Definition atoi (s : bytes) : Z :=
  let (neg, d) := match s with c :: r => if c =? 45 then (true, r) else if c =? 43 then (false, r) else (false, s) | [] => (false, s) end in
  match d with
  | [] => 0%Z
  | _ => if forallb digit d then
           if neg then Z.max (- decVal d) (- 2 ^ 63) else Z.min (decVal d) (2 ^ 63 - 1)
         else 0%Z
  end.
(* configclient/roundrobin/roundrobin.go:29-41 ParseServers *)
Definition parseServer (x : bytes) : option server :=
  match fields (replaceC 44 x) with p :: u :: _ => Some (mkSrv (atoi p) (str "http://" ++ u)) | _ => None end.
Definition parseServers (s : bytes) : list server :=
  flat_map (fun x => match parseServer x with Some v => [v] | None => [] end) (fields (replaceC 59 s)).
(* configclient/roundrobin/roundrobin.go:52-59 randomize; [x] is the result of rand.Perm *)
Fixpoint setAt {A} (n : nat) (a : A) (l : list A) : list A :=
  match l, n with [], _ => [] | _ :: l', O => a :: l' | b :: l', S n' => b :: setAt n' a l' end.
Definition randomize (x : list nat) (s : list bytes) : list bytes :=
  fold_left (fun ret p => setAt (fst p) (snd p) ret) (combine x s) (repeat [] (length s)).
(* configclient/roundrobin/roundrobin.go:62-84 Order: [perm k n] is the result of the (k+1)st call of rand.Perm, with argument n *)
Fixpoint groups (prio : Z) (cur : option (list bytes)) (sl : list server) : list (list bytes) :=
  match sl with
  | [] => match cur with Some c => [c] | None => [] end
  | s :: sl' =>
    if (prio =? vPrio s)%Z then groups prio (Some (match cur with Some c => c | None => [] end ++ [vUrl s])) sl'
    else match cur with Some c => [c] | None => [] end ++ groups (vPrio s) (Some [vUrl s]) sl'
  end.
Fixpoint randomizeAll (perm : nat -> nat -> list nat) (k : nat) (gs : list (list bytes)) : list bytes :=
  match gs with [] => [] | g :: gs' => randomize (perm k (length g)) g ++ randomizeAll perm (S k) gs' end.
Definition order (perm : nat -> nat -> list nat) (sl : list server) : list bytes := randomizeAll perm 0 (groups 0 None sl).
(* sort.Sort(ts) (configclient/client.go:60) with Less of configclient/roundrobin/roundrobin.go:94-96.  The order of
   servers of equal priority is not specified; here it is kept.  C53 is proved for every sorted permutation. *)
Fixpoint insertS (s : server) (l : list server) : list server :=
  match l with [] => [s] | t :: l' => if (vPrio t <? vPrio s)%Z then t :: insertS s l' else s :: l end.
Definition sortServers (l : list server) : list server := fold_right insertS [] l.

(* ------------------------------------------------------------------ *)
(* configclient/client.go:39-48 Config; a nil CACert is None.  The timeout is left out. *)
Record config := mkCfg { fPub : bytes; fURL : bytes; fCA : option bytes; fMap : list entry; fLast : N; fCur : nat }.
(* What happens during one Update: the permutations drawn, what the k-th server asked returns for its configuration
   (the JSON decoded, None for a transport or JSON error), what it returns as CA certificate. *)
Record world := mkWorld { oPerm : nat -> nat -> list nat; oConfig : bytes -> option signedMap; oCA : bytes -> option bytes }.
(* pem.Decode and x509.ParseCertificates *)
Record certLib := mkLib { pemBlock : bytes -> option bytes; x509ok : bytes -> bool }.
(* configclient/cahash/hash.go:15-23 Hash: line 17 dereferences the block, which is nil if there is no PEM data *)
Definition caHash (C : Crypto) (L : certLib) (cert : bytes) : res bytes :=
  match pemBlock L cert with
  | None => Panic
  | Some b => if x509ok L b then Ok (sha512 C b) else Err "x509"
  end.
Definition skew : Z := 82800.
(* configclient/client.go:131-141 getConfig *)
Definition getConfig (C : Crypto) (o : world) (now : Z) (url pub : bytes) (last : N) : res signedMap := certify C now last pub (oConfig o url).
(* configclient/client.go:145-169 getCACert *)
Definition getCACert (C : Crypto) (L : certLib) (o : world) (url hash : bytes) : res bytes :=
  match oCA o url with
  | None => Err "http"
  | Some p =>
    do h <- caHash C L p;
    match hexdec hash with
    | None => Err "encoding/hex"
    | Some hb => if beq h hb then Ok p else Err "configclient: CACert hash wrong"
    end
  end.
(* The loop from server [cur] on (configclient/client.go:68-76 and 98-105).  The result: the new index, and the first
   success or the last error; None if no server was asked. *)
Fixpoint tryFrom {A} (f : bytes -> res A) (servers : list bytes) (cur : nat) : nat * option (res A) :=
  match servers with
  | [] => (cur, None)
  | s :: rest =>
    match f s with
    | Ok a => (cur, Some (Ok a))
    | Panic => (cur, Some Panic)
    | Err e => let (c, r) := tryFrom f rest (S cur) in (c, match r with None => Some (Err e) | _ => r end)
    end
  end.
Definition setCur (c : config) (n : nat) : config := mkCfg (fPub c) (fURL c) (fCA c) (fMap c) (fLast c) n.
Definition setCA (c : config) (ca : option bytes) : config := mkCfg (fPub c) (fURL c) ca (fMap c) (fLast c) (fCur c).
Definition setLast (c : config) (l : N) : config := mkCfg (fPub c) (fURL c) (fCA c) (fMap c) l (fCur c).
Definition accept (c : config) (sm : signedMap) : config := mkCfg (fPub c) (fURL c) (fCA c) (sConfig sm) (sDate sm) (fCur c).
Definition lookup (k : bytes) (m : list entry) : option bytes := match find (fun e => beq (fst e) k) m with Some e => Some (snd e) | None => None end.
(* configclient/client.go:51-112 Update: the result and the configuration afterwards.  If no server is asked at all, cert
   is nil and line 84 panics. *)
Definition update (C : Crypto) (L : certLib) (o : world) (now : Z) (c : config) : res unit * config :=
  let servers := order (oPerm o) (sortServers (parseServers (fURL c))) in
  match servers with
  | [] => (Err "configclient: no available servers", c)
  | _ =>
    let c := if fLast c =? 0 then setLast c (u64 (now - skew)) else c in
    let (cur, r) := tryFrom (fun u => getConfig C o now u (fPub c) (fLast c)) (skipn (fCur c) servers) (fCur c) in
    let c := setCur c cur in
    match r with
    | None => (Panic, c)
    | Some Panic => (Panic, c)
    | Some (Err e) => (Err e, c)
    | Some (Ok cert) =>
      let servers := skipn cur servers ++ firstn cur servers in
      let c := setCur c 0 in
      match lookup (str "CACertHash") (sConfig cert) with
      | None => (Ok tt, accept c cert)
      | Some hisHash =>
        match hexdec hisHash with
        | None => (Err "encoding/hex", c)
        | Some hb =>
          match (match fCA c with Some ca => caHash C L ca | None => Ok [] end) with
          | Err e => (Err e, c)
          | Panic => (Panic, c)
          | Ok my =>
            if beq my hb then (Ok tt, accept c cert)
            else
              (* c.CACert is assigned in every iteration, nil on an error; on a panic the last assignment stays *)
              let (n, r) := tryFrom (fun u => getCACert C L o u hisHash) servers 0 in
              match r with
              | Some (Ok ca) => (Ok tt, accept (setCA (setCur c n) (Some ca)) cert)
              | Some (Err e) => (Err e, setCA (setCur c n) None)
              | Some Panic => (Panic, match n with O => c | _ => setCA (setCur c n) None end)
              | None => (Ok tt, accept (setCur c n) cert)
              end
          end
        end
      end
    end
  end.

(* ------------------------------------------------------------------ *)
(* def/def.go:31-109 InitMute: the package variables it sets *)
Record settings := mkSet { gRPC : bytes; gMix : bytes; gAcc : bytes; gSender : bytes; gWallet : bytes; gLookup : bytes; gGuard : bytes;
  gTrust : option bytes; gCleanup : N; gCA : option bytes; gMap : list entry; gOwner : option bytes; gUsage : bytes }.
(* def/def.go:210-218 decodeED25519PubKey *)
Definition decodeKey (s : bytes) : res bytes := match hexdec s with Some b => Ok (arr32 b) | None => Err "encoding/hex" end.
(* strconv.ParseUint(s, 10, 64) *)
Definition parseUint (s : bytes) : option N :=
  match s with [] => None | _ => if forallb digit s then let v := Z.to_N (decVal s) in if v <? 2 ^ 64 then Some v else None else None end.
Definition sendTime : N := 172800.
(* The statements of InitMute in sequence: a missing entry assigns "" (lines 47-66) before the error is returned. *)
Definition orEmpty (o : option bytes) : bytes := match o with Some b => b | None => [] end.
Definition setting (c : config) (k : String.string) : option bytes := lookup (str k) (fMap c).
Arguments setting c k%string.
Definition initMute (c : config) (g : settings) : res unit * settings :=
  let 'mkSet rpc mix acc snd wal loo gua tru cle ca ma own usg := g in
  let rpc := match setting c "mixclient.RPCPort" with Some (x :: p) => x :: p | _ => rpc end in
  match setting c "mixclient.MixAddress" with None => (Err "undefined", mkSet rpc mix acc snd wal loo gua tru cle ca ma own usg) | Some mix =>
  let acc := orEmpty (setting c "mixclient.AccountServer") in
  if negb (match setting c "mixclient.AccountServer" with Some _ => true | None => false end) then (Err "undefined", mkSet rpc mix acc snd wal loo gua tru cle ca ma own usg) else
  let snd := orEmpty (setting c "mixclient.Sender") in
  if negb (match setting c "mixclient.Sender" with Some _ => true | None => false end) then (Err "undefined", mkSet rpc mix acc snd wal loo gua tru cle ca ma own usg) else
  let wal := orEmpty (setting c "walletrpc.ServiceURL") in
  if negb (match setting c "walletrpc.ServiceURL" with Some _ => true | None => false end) then (Err "undefined", mkSet rpc mix acc snd wal loo gua tru cle ca ma own usg) else
  let loo := orEmpty (setting c "keylookup.ServiceURL") in
  if negb (match setting c "keylookup.ServiceURL" with Some _ => true | None => false end) then (Err "undefined", mkSet rpc mix acc snd wal loo gua tru cle ca ma own usg) else
  let gua := orEmpty (setting c "guardrpc.ServiceURL") in
  if negb (match setting c "guardrpc.ServiceURL" with Some _ => true | None => false end) then (Err "undefined", mkSet rpc mix acc snd wal loo gua tru cle ca ma own usg) else
  match setting c "serviceguard.TrustRoot" with None => (Err "undefined", mkSet rpc mix acc snd wal loo gua tru cle ca ma own usg) | Some t =>
  match decodeKey t with Err e => (Err e, mkSet rpc mix acc snd wal loo gua None cle ca ma own usg) | Panic => (Panic, g) | Ok tr =>
  let tru := Some tr in
  match setting c "mix.MaxDelay" with None => (Err "undefined", mkSet rpc mix acc snd wal loo gua tru cle ca ma own usg) | Some mm =>
  match parseUint mm with None => (Err "cannot parse", mkSet rpc mix acc snd wal loo gua tru cle ca ma own usg) | Some d =>
  let cle := (2 * sendTime + 2 * d) mod 2 ^ 64 in
  let ca := fCA c in
  let ma := fMap c in
  match setting c "muteaccd.owner" with None => (Err "undefined", mkSet rpc mix acc snd wal loo gua tru cle ca ma own usg) | Some w =>
  match decodeKey w with Err e => (Err e, mkSet rpc mix acc snd wal loo gua tru cle ca ma None usg) | Panic => (Panic, g) | Ok ow =>
  let own := Some ow in
  let usg := orEmpty (setting c "muteaccd.usage") in
  if negb (match setting c "muteaccd.usage" with Some _ => true | None => false end) then (Err "undefined", mkSet rpc mix acc snd wal loo gua tru cle ca ma own usg) else
  (Ok tt, mkSet rpc mix acc snd wal loo gua tru cle ca ma own usg)
  end end end end end end end.
