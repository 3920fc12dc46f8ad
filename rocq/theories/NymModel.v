(* ctrlengine/uid.go: creating, switching and deleting the user's own nyms, over the message database, the private UIDs in
   mutecrypt's key database, the wallet, and the key, key init and account servers.

   A command is a function on [world]; [nenv] and [denv] say how each step outside this process ends.  The key database is
   reduced to its PrivateUIDs and PrivateKeyInits (KeyDBModel has the tables themselves): a generated key pair is a number.
   The servers are not part of the repository; assumed of them: a token is accepted once, an ID is registered once, a key
   init is accepted only for the key registered for the ID.  The wallet is reduced to which tokens of which usage are locked,
   ordered by expiry (WalletModel has the rows).  Not modelled: the arguments of the mutecrypt process, log output, running
   out of randomness, a crash of mutectrl itself, the expiry of tokens. *)
From Verif Require Import Base Base64Model IdentityModel Maps SqlModel MsgDBModel HashChainModel.
Delimit Scope string_scope with string.
Local Open Scope N_scope.

(* keydb/keydb.go:33-41 PrivateUIDs: identity, the key pair, whether a reply of the key server is stored *)
Record prow := mkRow { pId : bytes; pKey : N; pReplied : bool }.
(* serviceguard/client/walletstore/store.go:23-44 walletTokens: hash, usage, whether locked *)
Record wtok := mkTok { kHash : bytes; kUsage : bytes; kLocked : bool }.
Record world := mkWorld {
  nDB : msgdb;                    (* the message database *)
  nPriv : list prow;              (* PrivateUIDs in row order *)
  nKeys : list (bytes * N);       (* PrivateKeyInits: identity and key pair *)
  nNext : N;                      (* the next key pair that will be generated *)
  nReg : list (bytes * N);        (* key server: registered IDs with the key pair *)
  nInit : list (bytes * N);       (* key init server *)
  nAcct : list bytes;             (* account servers: private keys of the accounts *)
  nTok : list wtok;               (* the wallet *)
  nSpent : list bytes }.          (* tokens the servers have accepted *)
Definition setDB x w := mkWorld x (nPriv w) (nKeys w) (nNext w) (nReg w) (nInit w) (nAcct w) (nTok w) (nSpent w).
Definition setPrivs x w := mkWorld (nDB w) x (nKeys w) (nNext w) (nReg w) (nInit w) (nAcct w) (nTok w) (nSpent w).
Definition setTok x w := mkWorld (nDB w) (nPriv w) (nKeys w) (nNext w) (nReg w) (nInit w) (nAcct w) x (nSpent w).

(* commands: a result and the world after it; the world is changed also if the result is an error *)
Definition M (A : Type) := world -> res A * world.
Definition mret {A} (a : A) : M A := fun w => (Ok a, w).
Definition mfail {A} (e : String.string) : M A := fun w => (Err e, w).
Arguments mfail {A} e%string.
Definition mbind {A B} (m : M A) (f : A -> M B) : M B := fun w =>
  match m w with (Ok a, w') => f a w' | (Err e, w') => (Err e, w') | (Panic, w') => (Panic, w') end.
Notation "'run' x <- m ; k" := (mbind m (fun x => k)) (at level 200, x pattern, m at level 100, k at level 200).
Definition mlift {A} (r : res A) : M A := fun w => (r, w).
Definition mget_ {A} (f : world -> A) : M A := fun w => (Ok (f w), w).
Definition mmod (f : world -> world) : M unit := fun w => (Ok tt, f w).
Definition onDB (f : msgdb -> res msgdb) : M unit := fun w =>
  match f (nDB w) with Ok d => (Ok tt, setDB d w) | Err e => (Err e, w) | Panic => (Panic, w) end.
Definition mneed (c : bool) (e : String.string) : M unit := mlift (need c e).
Arguments mneed c e%string.

(* how a request to a server ends: refused or not sent; executed, but without (valid) answer; answered; or the process
   making it dies before or after the server has executed it *)
Inductive rpc := Refused | Lost | Served | Died | DiedAfter.
(* what mutecryptNewUID reads from the mutecrypt process after a command: READY., an error line, or the end of the stream *)
Inductive answer := AReady | ALine (e : String.string) | AEOF.
Definition live (a : answer) : bool := match a with AEOF => false | _ => true end.
(* the outcome of a local step of mutecrypt *)
Inductive local := LOk | LErr | LDie.
(* util/wallet/wallet.go:21-55 GetToken: a token if there is one, an error, or nil without error
   (WalletModel.clientGetToken) *)
Inductive tkout := TGet | TErr | TNil.

Record nenv := mkNenv {
  neSync : bool;            (* upkeepHashchain succeeds *)
  neSearch : bool;          (* mutecrypt hashchain search can be run *)
  neTok1 : tkout; nePay : rpc; nePriv : bytes; neServer : bytes; neSecret : bytes;
  neAddr : bool;            (* util.NewNymAddress succeeds *)
  neStart : bool;           (* mutecrypt can be started *)
  neGen : local; neCaps : bool;
  neTok2 : tkout; neReg : rpc; neDel : local;
  neTok3 : tkout; neInit : rpc; neQuit : bool }.

(* the wallet: serviceguard/client/walletstore/store.go:395-429 (by expiry, not locked), 302-305, 308-311 *)
Definition usableFor (usage : bytes) (t : wtok) : bool := negb (kLocked t) && beq (kUsage t) usage.
Definition setLocked (b : bool) (h : bytes) (t : wtok) : wtok := if beq (kHash t) h then mkTok (kHash t) (kUsage t) b else t.
Definition lockTok (b : bool) (h : bytes) : M unit := mmod (fun w => setTok (map (setLocked b h) (nTok w)) w).
Definition delTok (h : bytes) : M unit := mmod (fun w => setTok (filter (fun t => negb (beq (kHash t) h)) (nTok w)) w).
Definition getTok (usage : bytes) (o : tkout) : M (option bytes) :=
  match o with
  | TErr => mfail "client: retry"
  | TNil => mret None
  | TGet =>
    run t <- mget_ (fun w => find (usableFor usage) (nTok w));
    match t with
    | None => mfail "client: no token in wallet"
    | Some t => run _ <- lockTok true (kHash t); mret (Some (kHash t))
    end
  end.
(* store.go:204, 209-215: opening the wallet frees all locks (C57) *)
Definition freeLocks (w : world) : world := setTok (map (fun t => mkTok (kHash t) (kUsage t) false) (nTok w)) w.

(* a request paid with token [h]; [ok] is the server's other condition, [eff] its effect *)
Definition spendable (h : bytes) (w : world) : bool := negb (existsb (beq h) (nSpent w)).
Definition serve (r : rpc) (h : bytes) (ok : world -> bool) (eff : world -> world) (refused lost : String.string) : M answer := fun w =>
  let w' := if spendable h w && ok w then eff w else w in
  match r with
  | Refused => (Ok (ALine refused), w)
  | Lost => (Ok (ALine lost), w')
  | Served => if spendable h w && ok w then (Ok AReady, w') else (Ok (ALine refused), w)
  | Died => (Ok AEOF, w)
  | DiedAfter => (Ok AEOF, w')
  end.
Arguments serve r h ok eff (refused lost)%string.

(* mixclient.PayAccount with a new key (made by mutectrl itself, so it does not die) *)
Definition addAcct (k h : bytes) (w : world) : world :=
  mkWorld (nDB w) (nPriv w) (nKeys w) (nNext w) (nReg w) (nInit w) (k :: nAcct w) (nTok w) (h :: nSpent w).
Definition payAccount (r : rpc) (k h : bytes) : M answer :=
  serve (match r with Died => Refused | DiedAfter => Lost | r => r end) h (fun _ => true) (addAcct k h) "account refused" "account: no answer".

(* keydb/keydb.go:120, 477-519 GetPrivateUID: the rows of an ID which was never updated all have message count 0;
   of those the first is read *)
Definition isId (id : bytes) (r : prow) : bool := beq (pId r) id.
Definition privUID (id : bytes) (w : world) : option prow := find (isId id) (nPriv w).
(* the UPDATE and DELETE are by the message, which contains the public key *)
Definition setReply (n : N) (w : world) : world :=
  setPrivs (map (fun r => if pKey r =? n then mkRow (pId r) (pKey r) true else r) (nPriv w)) w.
Definition delPriv (n : N) (w : world) : world := setPrivs (filter (fun r => negb (pKey r =? n)) (nPriv w)) w.

(* cryptengine/uid.go:21-64 generate *)
Definition addRow (id : bytes) (w : world) : world :=
  mkWorld (nDB w) (nPriv w ++ [mkRow id (nNext w) false]) (nKeys w) (nNext w + 1) (nReg w) (nInit w) (nAcct w) (nTok w) (nSpent w).
Definition generate (o : local) (id : bytes) : M answer :=
  match o with
  | LOk => run _ <- mmod (addRow id); mret AReady
  | LErr => mret (ALine "mutecrypt: generate"%string)
  | LDie => mret AEOF
  end.
Definition errRegistered : String.string := "cryptengine: UID has already been registered"%string.
Definition errReg : String.string := "KeyRepository.CreateUID: refused"%string.
Definition errRegLost : String.string := "KeyRepository.CreateUID: no valid answer"%string.
Definition errNoPriv : String.string := "keydb: no privkey for nym found"%string.
(* cryptengine/uid.go:66-127 registerOrUpdate for CreateUID *)
Definition isReg (id : bytes) (w : world) : bool := existsb (fun r => beq (fst r) id) (nReg w).
Definition addReg (id : bytes) (n : N) (h : bytes) (w : world) : world :=
  mkWorld (nDB w) (nPriv w) (nKeys w) (nNext w) ((id, n) :: nReg w) (nInit w) (nAcct w) (nTok w) (h :: nSpent w).
Definition register (o : rpc) (id h : bytes) : M answer :=
  run r <- mget_ (privUID id);
  match r with
  | None => mret (ALine errNoPriv)
  | Some r =>
    if pReplied r then mret (ALine errRegistered)
    else
      run a <- serve o h (fun w => negb (isReg id w)) (addReg id (pKey r) h) errReg errRegLost;
      match a with
      | AReady => run _ <- mmod (setReply (pKey r)); mret AReady
      | a => mret a
      end
  end.
(* cryptengine/uid.go:160-190 deleteUID with force *)
Definition deleteUID (o : local) (id : bytes) : M answer :=
  match o with
  | LErr => mret (ALine "mutecrypt: delete"%string)
  | LDie => mret AEOF
  | LOk =>
    run r <- mget_ (privUID id);
    match r with None => mret (ALine errNoPriv) | Some r => run _ <- mmod (delPriv (pKey r)); mret AReady end
  end.
(* cryptengine/keyinit.go:17-86 addKeyInit *)
Definition isRegKey (id : bytes) (n : N) (w : world) : bool := existsb (fun r => beq (fst r) id && (snd r =? n)) (nReg w).
Definition addInit (id : bytes) (n : N) (h : bytes) (w : world) : world :=
  mkWorld (nDB w) (nPriv w) (nKeys w) (nNext w) (nReg w) ((id, n) :: nInit w) (nAcct w) (nTok w) (h :: nSpent w).
Definition addKey (id : bytes) (n : N) (w : world) : world :=
  mkWorld (nDB w) (nPriv w) ((id, n) :: nKeys w) (nNext w) (nReg w) (nInit w) (nAcct w) (nTok w) (nSpent w).
Definition addKeyInit (o : rpc) (id h : bytes) : M answer :=
  run r <- mget_ (privUID id);
  match r with
  | None => mret (ALine errNoPriv)
  | Some r =>
    run a <- serve o h (isRegKey id (pKey r)) (addInit id (pKey r) h) "KeyInitRepository.AddKeyInit: refused" "KeyInitRepository.AddKeyInit: no valid answer";
    match a with
    | AReady => run _ <- mmod (addKey id (pKey r)); mret AReady
    | a => mret a
    end
  end.

(* ctrlengine/uid.go:202-266: the key init, quitting and propagating the error of the registration.  The scanner loops end
   without an error when mutecrypt's stderr ends; only cmd.Wait reports that it died. *)
Definition keyInitAndQuit (e : nenv) (id : bytes) (cryptErr : option String.string) (alive : bool) : M unit :=
  run t <- getTok (str "Message") (neTok3 e);
  match t with
  | None => mlift Panic
  | Some h =>
    run a <- (if alive then addKeyInit (neInit e) id h else mret AEOF);
    match a with
    | ALine s => mfail s
    | a =>
      run _ <- delTok h;
      if negb (live a) then mfail "signal: killed"
      else if negb (neQuit e) then mfail "mutecrypt: quit"
      else match cryptErr with Some s => mfail s | None => mret tt end
    end
  end.
(* ctrlengine/uid.go:45-267 mutecryptNewUID *)
Definition mutecryptNewUID (e : nenv) (id : bytes) : M unit :=
  if negb (neStart e) then mfail "exec"
  else
    run a <- generate (neGen e) id;
    match a with
    | ALine s => mfail s
    | AEOF => mfail "EOF"
    | AReady =>
      if negb (neCaps e) then mfail "caps"
      else
        run t <- getTok (str "UID") (neTok2 e);
        match t with
        | None => mlift Panic
        | Some h =>
          run a <- register (neReg e) id h;
          match a with
          | ALine s =>
            run _ <- lockTok false h;
            run d <- deleteUID (neDel e) id;
            match d with
            | ALine s' => mfail s'
            | d => keyInitAndQuit e id (Some s) (live d)
            end
          | a => run _ <- delTok h; keyInitAndQuit e id None (live a)
          end
        end
    end.

Section Nym.
  Variable U : Unicode.
  Definition activeKey : bytes := str "ActiveUID".
  (* the value of muteaccd.usage in the configuration *)
  Variable accd : bytes.
  (* ctrlengine/uid.go:306-407 uidNew.  "id != keyserver" always holds, as id contains an "@".  mutecrypt hashchain search
     (lines 337-340) succeeds if the synced hash chain has an entry for the ID. *)
  Definition uidNew (e : nenv) (unmapped full : bytes) (minD maxD : Z) : M unit :=
    run (id, _) <- mlift (mapPlus U unmapped);
    run _ <- mneed (neSync e) "sync";
    run (old, _) <- (fun w => mlift (getNym U id (nDB w)) w);
    if negb (isNil old) then mfail "ErrUserIDOwned"
    else
      run found <- mget_ (fun w => neSearch e && isReg id w);
      if (found : bool) then mfail "ErrUserIDTaken"
      else
        run t <- getTok accd (neTok1 e);
        match t with
        | None => mlift Panic
        | Some h =>
          run a <- payAccount (nePay e) (nePriv e) h;
          match a with
          | AReady =>
            run _ <- delTok h;
            run _ <- mneed (neAddr e) "nymaddress";
            run _ <- mutecryptNewUID e id;
            run _ <- onDB (addNym U id unmapped full);
            run _ <- onDB (addAccount U id [] (nePriv e) (neServer e) (neSecret e) minD maxD);
            run active <- (fun w => mlift (getValue activeKey (nDB w)) w);
            if isNil active then onDB (addValue activeKey unmapped) else mret tt
          | ALine s => run _ <- lockTok false h; mfail s
          | AEOF => mfail "unreachable"
          end
        end.
  (* ctrlengine/uid.go:409-422 uidEdit *)
  Definition uidEdit (unmapped full : bytes) : M unit :=
    run id <- mlift (imap U unmapped);
    run (old, _) <- (fun w => mlift (getNym U id (nDB w)) w);
    if isNil old then mfail "user ID unknown" else onDB (addNym U id unmapped full).
  (* ctrlengine/uid.go:424-439 uidActive: what is written *)
  Definition uidActive : M bytes :=
    run active <- (fun w => mlift (getValue activeKey (nDB w)) w);
    if isNil active then mfail "ctrlengine: no active nym in DB" else mret (active ++ [10]).
  (* ctrlengine/uid.go:441-454 uidSwitch *)
  Definition uidSwitch (unmapped : bytes) : M unit :=
    run id <- mlift (imap U unmapped);
    run (old, _) <- (fun w => mlift (getNym U id (nDB w)) w);
    if isNil old then mfail "user ID unknown" else onDB (addValue activeKey id).
  (* ctrlengine/uid.go:482-552 uidDelete, the question answered with yes (or --force).  [deProc]: the outcome of the
     mutecrypt process (456-480); [deAcc]: for each account whether its deletion is confirmed by the server *)
  Record denv := mkDenv { deProc : local; deAcc : bytes -> bool }.
  Fixpoint accountKeys (id : bytes) (cs : list bytes) (db : msgdb) : res (list bytes) :=
    match cs with
    | [] => Ok []
    | c :: cs' => do (pk, _, _, _, _, _) <- getAccount U id c db; do r <- accountKeys id cs' db; Ok (pk :: r)
    end.
  Definition dropAcct (k : bytes) (w : world) : world :=
    mkWorld (nDB w) (nPriv w) (nKeys w) (nNext w) (nReg w) (nInit w) (filter (fun x => negb (beq x k)) (nAcct w)) (nTok w) (nSpent w).
  Fixpoint deleteAccounts (ok : bytes -> bool) (ks : list bytes) : M unit :=
    match ks with
    | [] => mret tt
    | k :: ks' => if ok k then run _ <- mmod (dropAcct k); deleteAccounts ok ks' else mfail "DeleteAccount"
    end.
  Definition uidDelete (e : denv) (unmapped : bytes) : M unit :=
    run id <- mlift (imap U unmapped);
    run (old, _) <- (fun w => mlift (getNym U id (nDB w)) w);
    if isNil old then mfail "ctrlengine: user ID unknown"
    else
      run ks <- (fun w => mlift (do cs <- getAccounts U id (nDB w); accountKeys id cs (nDB w)) w);
      run _ <- onDB (delNym U id);
      run a <- deleteUID (deProc e) id;
      match a with
      | ALine s => mfail s
      | AEOF => mfail "signal: killed"
      | AReady => deleteAccounts (deAcc e) ks
      end.

  (* what a user does; NBuy: the wallet receives a token with a new hash, NReopen: mutectrl is started again *)
  Inductive nop :=
  | NNew (e : nenv) (unmapped full : bytes) (minD maxD : Z)
  | NEdit (unmapped full : bytes)
  | NSwitch (unmapped : bytes)
  | NDelete (e : denv) (unmapped : bytes)
  | NBuy (h usage : bytes)
  | NReopen.
  Definition knownHash (h : bytes) (w : world) : bool := existsb (beq h) (nSpent w) || existsb (fun t => beq (kHash t) h) (nTok w).
  Definition nexec (o : nop) : M unit :=
    match o with
    | NNew e u f a b => uidNew e u f a b
    | NEdit u f => uidEdit u f
    | NSwitch u => uidSwitch u
    | NDelete e u => uidDelete e u
    | NBuy h usage => mmod (fun w => if knownHash h w then w else setTok (nTok w ++ [mkTok h usage false]) w)
    | NReopen => mmod freeLocks
    end.
  Definition nstep (w : world) (o : nop) : world := snd (nexec o w).
  Definition nrun (ops : list nop) (w : world) : world := fold_left nstep ops w.
End Nym.
(* a new installation; keys and IDs registered by other users are numbered below [k] *)
Definition freshWorld (others : list (bytes * N)) (k : N) : world := mkWorld emptyDB [] [] k others [] [] [] [].
