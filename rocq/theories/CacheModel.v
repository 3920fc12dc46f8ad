(* The cache of key servers in mutecrypt: cryptengine/cache/cache.go, cryptengine/capabilities.go, util/jsonclient/jsonclient.go:33-48 New,
   and how the commands of mutecrypt use it.

   Not modelled: url.Parse (a parameter that gives the scheme), the conversion of the answer into the struct Capabilities through JSON
   (a parameter), the TLS connection.  A client is its URL, since the certificate is the same for all.  The configuration, the host and
   the port are those read when the process was prepared. *)
From Verif Require Import Base Maps JsonModel GuardModel.
Delimit Scope string_scope with string.
Local Open Scope N_scope.

(* keyserver/capabilities/capabilities.go:10-19 Capabilities: the methods and the signature keys *)
Record caps := mkCaps { cMethods : list bytes; cSigKeys : list bytes }.
(* what a call does in the network: a request for the capabilities with what was read from the answer, and a request of another method *)
Inductive event := Ask (domain url : bytes) (c : option caps) | Call (domain url method : bytes).
(* cryptengine/cache/cache.go:20-25 Cache *)
Record cache := mkCache { cClients : map_ bytes; cCaps : map_ caps }.
Definition newCache : cache := mkCache [] [].

Section Cache.
Variable scheme : bytes -> option bytes.                       (* url.Parse: the scheme in lower case, or an error *)
Variable readCaps : list (bytes * json) -> option caps.        (* json.Marshal of the map and json.Unmarshal into the struct *)
Variable conf : map_ bytes.                                    (* def.ConfigMap *)
Variable certOk : bool.                                        (* def.CACert holds a certificate *)

(* util/jsonclient/jsonclient.go:33-48 New *)
Definition jsonNew (url : bytes) : res bytes :=
  match scheme url with
  | None => Err "parse"
  | Some s => if beq s (str "https") && negb certOk then Err "jsonclient: certificate load failed" else Ok url
  end.
(* cryptengine/cache/cache.go:38-58 newClient *)
Definition newClient (domain port altHost : bytes) : res bytes :=
  match altHost with
  | _ :: _ => jsonNew (str "https://" ++ altHost ++ port ++ str "/")
  | [] => match mget (str "keyserver." ++ domain) conf with Some url => jsonNew url | None => Err "cache: no configuration" end
  end.
(* cryptengine/cache/cache.go:64-93 Set; [net] answers the request for the capabilities *)
Definition readReply (ans : rpc) : res caps :=
  match ans with
  | Ok data =>
    match member (str "CAPABILITIES") data with
    | Some (JObj rep) => match readCaps rep with Some c => Ok c | None => Err "json" end
    | _ => Err "cryptengine: key server capabilities reply has the wrong type"
    end
  | Err s => Err s
  | Panic => Err "request"
  end.
Definition cacheSet (net : bytes -> rpc) (domain port altHost : bytes) (c : cache) : res unit * cache * list event :=
  match newClient domain port altHost with
  | Err s => (Err s, c, [])
  | Panic => (Panic, c, [])
  | Ok url =>
    match readReply (net url) with
    | Ok k => (Ok tt, mkCache (mset domain url (cClients c)) (mset domain k (cCaps c)), [Ask domain url (Some k)])
    | Err s => (Err s, c, [Ask domain url None])
    | Panic => (Panic, c, [Ask domain url None])
    end
  end.
(* cryptengine/cache/cache.go:103-108, 129-134 *)
Definition fill (net : bytes -> rpc) (domain port altHost : bytes) (c : cache) : res unit * cache * list event :=
  match mget domain (cCaps c) with Some _ => (Ok tt, c, []) | None => cacheSet net domain port altHost c end.
(* cryptengine/cache/cache.go:99-121 Get; util/util.go:60-67 ContainsString *)
Definition cacheGet (net : bytes -> rpc) (domain port altHost method : bytes) (c : cache) : res (bytes * caps) * cache * list event :=
  match fill net domain port altHost c with
  | (Err s, c, t) => (Err s, c, t)
  | (Panic, c, t) => (Panic, c, t)
  | (Ok _, c, t) =>
    match mget domain (cCaps c) with
    | None => (Panic, c, t)
    | Some k =>
      if negb (existsb (beq method) (cMethods k)) then (Err "cache: key server does not support method", c, t)
      else match mget domain (cClients c) with None => (Panic, c, t) | Some url => (Ok (url, k), c, t) end
    end
  end.

(* cryptengine/cryptengine.go:53-55 prepare: the options --keyhost and --keyport of the process *)
Variables keydHost keydPort : bytes.
(* strings.Split(s, ":") *)
Fixpoint splitColon (s : bytes) : list bytes :=
  match s with
  | [] => [[]]
  | c :: s' => let l := splitColon s' in if c =? 58 then [] :: l else match l with p :: ps => (c :: p) :: ps | [] => [[c]] end
  end.
Definition theHost (altHost : bytes) : bytes := match altHost with [] => keydHost | _ => altHost end.
(* cryptengine/capabilities.go:12-30 getCapabilities *)
Definition getCapabilities (net : bytes -> rpc) (domainAndPort altHost : bytes) (c : cache) : res unit * cache * list event :=
  match splitColon domainAndPort with
  | [d] => cacheSet net d keydPort (theHost altHost) c
  | [d; p] => cacheSet net d (58 :: p) (theHost altHost) c
  | _ => (Err "cryptengine: cannot parse DMN[:PRT] argument", c, [])
  end.
(* cryptengine/capabilities.go:32-37 showCapabilities and cryptengine/cache/cache.go:127-143 ShowCapabilities: the capabilities printed *)
Definition showCapabilities (net : bytes -> rpc) (domain altHost : bytes) (c : cache) : res caps * cache * list event :=
  match fill net domain keydPort (theHost altHost) c with
  | (Ok _, c, t) => (match mget domain (cCaps c) with Some k => Ok k | None => Panic end, c, t)
  | (Err s, c, t) => (Err s, c, t)
  | (Panic, c, t) => (Panic, c, t)
  end.
(* The calls in cryptengine/uid.go:83-95 and 125, cryptengine/keyinit.go:46-77, 108-118, 144-155 and cryptengine/hashchain.go:25-32, 71-84, 188-200, 392-404: the
   method required is the method called.  [signed]: the answer is checked with caps.SIGPUBKEYS[0].  [ok]: the request is answered
   as it should be. *)
Definition callServer (net : bytes -> rpc) (domain method : bytes) (signed ok : bool) (c : cache) : res (option bytes) * cache * list event :=
  match cacheGet net domain keydPort keydHost method c with
  | (Err s, c, t) => (Err s, c, t)
  | (Panic, c, t) => (Panic, c, t)
  | (Ok (url, k), c, t) =>
    (if negb ok then Err "request" else if signed then match cSigKeys k with key :: _ => Ok (Some key) | [] => Panic end else Ok None,
     c, t ++ [Call domain url method])
  end.

(* the commands of one process, each with the network at its time *)
Inductive cmd := CGet (domainAndPort altHost : bytes) | CShow (domain altHost : bytes) | CCall (domain method : bytes) (signed ok : bool).
Definition perform (net : bytes -> rpc) (x : cmd) (c : cache) : res unit * cache * list event :=
  let drop {A} (r : res A) : res unit := match r with Ok _ => Ok tt | Err s => Err s | Panic => Panic end in
  match x with
  | CGet dp h => getCapabilities net dp h c
  | CShow d h => let '(r, c, t) := showCapabilities net d h c in (drop r, c, t)
  | CCall d m s ok => let '(r, c, t) := callServer net d m s ok c in (drop r, c, t)
  end.
Fixpoint performs (l : list ((bytes -> rpc) * cmd)) (c : cache) : cache * list event :=
  match l with
  | [] => (c, [])
  | (net, x) :: l => let '(_, c, t) := perform net x c in let (c, t') := performs l c in (c, t ++ t')
  end.
End Cache.
