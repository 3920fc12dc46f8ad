(* What mutectrl does before a command: opening the message database, the stored configuration and when it is fetched again,
   the check for updates, the wallet; the interactive loop; db create; the server of the app mode.

   The clock counts whole seconds.  The JSON encoding of a configuration is not modelled: a stored configuration is the record
   without the index of the current server, which is not exported (configclient/client.go:46-47). *)
From Verif Require Import Base Base64Model CryptoModel Maps KeyfileModel MixClientModel PipeModel ConfigModel.
From Verif Require ScanModel.
Delimit Scope string_scope with string.
Local Open Scope N_scope.

(* release/release.go Commit and Date, def/def.go:119-131 ConfigParams (the key is decoded, both are constants of the program), and
   time.Parse(git.Date, _) with the result in seconds *)
Record program := mkProg { gPub : bytes; gHost : bytes; gCommit : bytes; gDate : bytes; parseDate : bytes -> option Z }.
(* The values of the message database that are used here (msgdb GetValue and AddValue): the configuration under the key netDomain,
   the time under "time." and netDomain, the wallet key; "" if there is no entry. *)
Record store := mkStore { kConf : option config; kTime : bytes; kWallet : bytes }.
(* ctrlengine/ctrlengine.go:56-66 CtrlEngine: whether msgDB is open, the passphrase (None: nil), the configuration; the package
   variables of def; the values in the database; the configuration file in the home directory, which the other programs read. *)
Record ctrl := mkCtrl { tOpen : bool; tPass : option bytes; tCfg : config; tSet : settings; tStore : store; tFile : option config }.
(* What happens during one command: the time, the configuration servers, how many calls of AddValue in upkeepFetchconf work, whether
   the configuration file can be written, whether the wallet gets its keys, what is read as passphrase. *)
Record env := mkEnv { vNow : Z; vWorld : world; vAdds : nat; vWrite : bool; vKeys : bool; vRead : res (option bytes) }.
Inductive net := NConfig | NKeys.

Definition setCfg (k : ctrl) (c : config) : ctrl := mkCtrl (tOpen k) (tPass k) c (tSet k) (tStore k) (tFile k).
Definition setSet (k : ctrl) (g : settings) : ctrl := mkCtrl (tOpen k) (tPass k) (tCfg k) g (tStore k) (tFile k).
Definition setStore (k : ctrl) (s : store) : ctrl := mkCtrl (tOpen k) (tPass k) (tCfg k) (tSet k) s (tFile k).
Definition setFile (k : ctrl) (f : option config) : ctrl := mkCtrl (tOpen k) (tPass k) (tCfg k) (tSet k) (tStore k) f.

(* json.Marshal and json.Unmarshal of a configuration; curServer is not exported.  Unmarshal adds the entries to the map that is
   there and keeps its other entries. *)
Definition marshal (c : config) : config := setCur c 0.
Definition hasKey (k : bytes) (m : list entry) : bool := match lookup k m with Some _ => true | None => false end.
Definition unmarshal (s old : config) : config :=
  mkCfg (fPub s) (fURL s) (fCA s) (fMap s ++ filter (fun e => negb (hasKey (fst e) (fMap s))) (fMap old)) (fLast s) (fCur old).

(* ctrlengine/upkeep.go:109-157 upkeepFetchconf, with writeConfigFile (96-107) *)
Definition fetchconf (C : Crypto) (L : certLib) (P : program) (e : env) (k : ctrl) : res unit * ctrl :=
  let c := tCfg k in
  let (r, c) := update C L (vWorld e) (vNow e) (mkCfg (gPub P) (str "10," ++ gHost P) (fCA c) (fMap c) (fLast c) (fCur c)) in
  let k := setCfg k c in
  match r with
  | Err x => (Err x, k)
  | Panic => (Panic, k)
  | Ok _ =>
    match vAdds e with
    | O => (Err "AddValue", k)
    | S O => (Err "AddValue", setStore k (mkStore (Some (marshal c)) (kTime (tStore k)) (kWallet (tStore k))))
    | _ =>
      let k := setStore k (mkStore (Some (marshal c)) (formatInt (vNow e)) (kWallet (tStore k))) in
      let (r, g) := initMute c (tSet k) in
      let k := setSet k g in
      match r with
      | Ok _ => if vWrite e then (Ok tt, setFile k (Some (marshal c))) else (Err "write", k)
      | _ => (r, k)
      end
    end
  end.

(* def/def.go:182-190 FetchconfMinDuration, FetchconfMaxDuration and UpdateDuration *)
Definition minAge : Z := 86400.
Definition maxAgeOffline : Z := 604800.
Definition updateDuration : Z := 1209600.
(* ctrlengine/ctrlengine.go:89-162 getConfig: the result, the state, what was done on the network *)
Definition getConf (C : Crypto) (L : certLib) (P : program) (offline : bool) (e : env) (k : ctrl) : res unit * ctrl * list net :=
  match kConf (tStore k) with
  | Some s =>
    let c := unmarshal s (tCfg k) in
    let (r, g) := initMute c (tSet k) in
    let k := setSet (setCfg k c) g in
    match r with
    | Panic => (Panic, k, [])
    | Err _ => if offline then (Err "ctrlengine: cannot fetch config in --offline mode, run without", k, []) else (fetchconf C L P e k, [NConfig])
    | Ok _ =>
      match kTime (tStore k) with
      | [] => (Ok tt, k, [])
      | t =>
        match parseInt t with
        | None => (Err "strconv", k, [])
        | Some z =>
          if (minAge <? vNow e - z)%Z then
            if offline then
              if (maxAgeOffline <? vNow e - z)%Z then (Err "ctrlengine: configuration is outdated, please run without --offline", k, []) else (Ok tt, k, [])
            else (fetchconf C L P e k, [NConfig])
          else (Ok tt, k, [])
        end
      end
    end
  | None => if offline then (Err "ctrlengine: cannot fetch config in --offline mode", k, []) else (fetchconf C L P e k, [NConfig])
  end.

(* ctrlengine/ctrlengine.go:164-202 checkUpdates: true if the user is told about a new version *)
Definition inMap (c : config) (k : String.string) : bytes := orEmpty (setting c k).
Arguments inMap c k%string.
Definition checkUpdates (P : program) (c : config) : res bool :=
  if beq (gCommit P) (inMap c "release.Commit") then Ok false
  else match parseDate P (inMap c "release.Date") with
  | None => Err "time.Parse"
  | Some rel =>
    match parseDate P (gDate P) with
    | None => Err "time.Parse"
    | Some bin =>
      if negb (bin <? rel)%Z then Ok false
      else if (bin + updateDuration <? rel)%Z then Err "ctrlengine: software is outdated, you have to update with `mutectrl upkeep update`"
      else Ok true
    end
  end.
(* ctrlengine/upkeep.go:250-322 upkeepUpdate, from 260 on: whether the new version is installed; the installation is not modelled *)
Definition updateDue (P : program) (c : config) : res bool :=
  if beq (gCommit P) (inMap c "release.Commit") then Ok false
  else match parseDate P (inMap c "release.Date") with
  | None => Err "time.Parse"
  | Some rel =>
    match parseDate P (gDate P) with
    | None => Err "time.Parse"
    | Some bin => if (rel <? bin)%Z then Ok false else Ok true
    end
  end.
Definition upkeepUpdate (C : Crypto) (L : certLib) (P : program) (e : env) (k : ctrl) : res bool * ctrl :=
  match fetchconf C L P e k with
  | (Ok _, k) => (updateDue P (tCfg k), k)
  | (Err x, k) => (Err x, k)
  | (Panic, k) => (Panic, k)
  end.

(* ctrlengine/ctrlengine.go:1371-1379 decodeWalletKey *)
Definition decodeWalletKey (p : bytes) : res bytes := match b64dec p with None => Err "base64" | Some d => Ok (takeN 64 (d ++ repeat 0 64%nat)) end.
(* ctrlengine/wallet.go:15-22 printWalletKey: the slice pk[32:] *)
Definition printWalletKey (p : bytes) : res bytes :=
  match b64dec p with None => Err "base64" | Some d => if lenN d <? 32 then Panic else Ok (str "WALLETPUBKEY:" ++ [9] ++ b64enc (dropN 32 d) ++ [10]) end.
(* ctrlengine/ctrlengine.go:204-229 startWallet; trivial.New works *)
Definition startWallet (offline : bool) (e : env) (k : ctrl) : res unit * list net :=
  match decodeWalletKey (kWallet (tStore k)) with
  | Err x => (Err x, [])
  | Panic => (Panic, [])
  | Ok _ => if offline then (Ok tt, []) else (if vKeys e then Ok tt else Err "GetVerifyKeys", [NKeys])
  end.

(* ctrlengine/ctrlengine.go:1381-1407 openMsgDB; [opens] tells with which passphrases the database can be opened *)
Definition openMsgDB (opens : bytes -> bool) (e : env) (k : ctrl) : res unit * ctrl :=
  match (match tPass k with Some p => Ok (Some p) | None => vRead e end) with
  | Err x => (Err x, k)
  | Panic => (Panic, k)
  | Ok p =>
    let ok := opens (match p with Some p => p | None => [] end) in
    (if ok then Ok tt else Err "open", mkCtrl ok p (tCfg k) (tSet k) (tStore k) (tFile k))
  end.
(* ctrlengine/ctrlengine.go:231-294 prepare.  Creating the directories, the log and the table of file descriptors (236-255) work. *)
Definition prepare (C : Crypto) (L : certLib) (P : program) (opens : bytes -> bool) (openDB check offline : bool) (e : env) (k : ctrl) : res unit * ctrl * list net :=
  if negb openDB then (Ok tt, k, [])
  else match (if tOpen k then (Ok tt, k) else openMsgDB opens e k) with
  | (Err x, k) => (Err x, k, [])
  | (Panic, k) => (Panic, k, [])
  | (Ok _, k) =>
    match getConf C L P offline e k with
    | (Err x, k, n) => (Err x, k, n)
    | (Panic, k, n) => (Panic, k, n)
    | (Ok _, k, n) =>
      match (if check then match checkUpdates P (tCfg k) with Ok _ => Ok tt | Err x => Err x | Panic => Panic end else Ok tt) with
      | Err x => (Err x, k, n)
      | Panic => (Panic, k, n)
      | Ok _ => let (r, n2) := startWallet offline e k in (r, k, n ++ n2)
      end
    end
  end.

(* A new process: the variables of the program have their initial values; [g] are those of def/def.go *)
Definition zeroCfg : config := mkCfg [] [] None [] 0 0.
Definition restart (g : settings) (k : ctrl) : ctrl := mkCtrl false None zeroCfg g (tStore k) (tFile k).
(* Commands as far as the configuration is concerned: any command that needs the databases, mutectrl upkeep fetchconf
   (ctrlengine.go:1183-1196), mutectrl upkeep update (1238-1246), the end of the process *)
Inductive step := SCommand (offline : bool) (e : env) | SFetch (offline : bool) (e : env) | SUpdate (offline : bool) (e : env) | SRestart (g : settings).
Definition runStep (C : Crypto) (L : certLib) (P : program) (opens : bytes -> bool) (st : step) (k : ctrl) : res unit * ctrl * list net :=
  match st with
  | SCommand off e => prepare C L P opens true true off e k
  | SFetch off e =>
    match prepare C L P opens true true off e k with
    | (Ok _, k, n) => (fetchconf C L P e k, n ++ [NConfig])
    | x => x
    end
  | SUpdate off e =>
    match prepare C L P opens true false off e k with
    | (Ok _, k, n) => let (r, k) := upkeepUpdate C L P e k in (match r with Ok _ => Ok tt | Err x => Err x | Panic => Panic end, k, n ++ [NConfig])
    | x => x
    end
  | SRestart g => (Ok tt, restart g k, [])
  end.
Fixpoint runSteps (C : Crypto) (L : certLib) (P : program) (opens : bytes -> bool) (l : list step) (k : ctrl) : ctrl :=
  match l with [] => k | st :: l => runSteps C L P opens l (snd (fst (runStep C L P opens st k))) end.

(* ctrlengine/ctrlengine.go:467-473 and 316-396 loop: mutectrl without a command.  The first prepare has the options of the command
   line, and ends the program on an error; for every line that is read the options --homedir, --logdir and --loglevel are passed
   again and no others, so a command has the option --offline exactly if it is in the line.  The lines here are commands that call
   prepare(c, true, true); a panic ends the program. *)
Fixpoint loopLines (C : Crypto) (L : certLib) (P : program) (opens : bytes -> bool) (lines : list (bool * env)) (k : ctrl) : list (res unit) * list net :=
  match lines with
  | [] => ([], [])
  | (off, e) :: rest =>
    match prepare C L P opens true true off e k with
    | (Panic, _, n) => ([Panic], n)
    | (r, k, n) => let (rs, ns) := loopLines C L P opens rest k in (r :: rs, n ++ ns)
    end
  end.
Definition interactive (C : Crypto) (L : certLib) (P : program) (opens : bytes -> bool) (offline : bool) (e : env) (lines : list (bool * env)) (k : ctrl) : list (res unit) * list net :=
  match prepare C L P opens true true offline e k with
  | (Ok _, k, n) => let (rs, ns) := loopLines C L P opens lines k in (Ok tt :: rs, n ++ ns)
  | (r, _, n) => ([r], n)
  end.

(* ctrlengine/ctrlengine.go:410-423 checkDelayArgs, and the conversions in 701-702, 1035: the delays that are used *)
Definition toInt32 (z : Z) : Z := ((z + 2 ^ 31) mod 2 ^ 32 - 2 ^ 31)%Z.
Definition delayArgs (nocheck : bool) (mind maxd : Z) : res (Z * Z) :=
  if negb nocheck && (mind <? 60)%Z then Err "--mindelay must be at least 60"
  else if negb nocheck && (maxd <? 61)%Z then Err "--maxdelay must be at least 61"
  else if negb nocheck && (maxd <=? mind)%Z then Err "--mindelay must be strictly smaller than --maxdelay"
  else Ok (toInt32 mind, toInt32 maxd).

(* ------------------------------------------------------------------ *)
(* ctrlengine/db.go:29-73 createKeyDB: what is written to the standard input of mutecrypt *)
Definition createInput (pass : bytes) : bytes := pass ++ [10] ++ pass ++ [10].
(* ctrlengine/db.go:76-174 dbCreate from 134 on, with the passphrase that was read (ScanModel.askNew or the terminal); cryptengine/db.go:20-48
   dbCreate for the keys, [cut] the pieces in which mutecrypt reads.  [key] is the private key generated if the option
   --walletkey is not given. *)
Definition ctrlCreate (C : Crypto) (K : kdf) (L : certLib) (P : program) (dM dK : disk) (home : bytes) (iter : Z) (rM rK : bytes) (e : env)
    (cut : bytes -> list bytes) (option key : bytes) (pass : bytes) (k : ctrl) (s : fs) : res bytes * ctrl * fs :=
  match create C K dM (ScanModel.msgsName home) pass iter rM s with
  | (Err x, l) => (Err x, k, last l s)
  | (Panic, l) => (Panic, k, last l s)
  | (Ok _, l) =>
    let s := last l s in
    match openDB C K (ScanModel.msgsName home) pass s with
    | Err x => (Err x, k, s)
    | Panic => (Panic, k, s)
    | Ok _ =>
      match fetchconf C L P e k with
      | (Err x, k) => (Err x, k, s)
      | (Panic, k) => (Panic, k, s)
      | (Ok _, k) =>
        match ScanModel.askNew (cut (createInput pass)) with
        | Err x => (Err x, k, s)
        | Panic => (Panic, k, s)
        | Ok (pass', _) =>
          match create C K dK (ScanModel.keysName home) pass' iter rK s with
          | (Err x, l) => (Err x, k, last l s)
          | (Panic, l) => (Panic, k, last l s)
          | (Ok _, l) =>
            let w := match option with [] => b64enc key | _ => option end in
            (printWalletKey w, setStore k (mkStore (kConf (tStore k)) (kTime (tStore k)) w), last l s)
          end
        end
      end
    end
  end.

(* ------------------------------------------------------------------ *)
(* ctrlengine/app.go: requests to the server, one at a time (the handlers run concurrently and share the engine without a lock;
   not modelled).  A login without GET carries the values of the form field passphrase; a page request the value of the first
   cookie named mute.  [rnd] is what the random source gives. *)
Inductive request := QForm | QLogin (field : list bytes) (e : env) (rnd : bytes) | QPage (cookie : option bytes).
Inductive response := RForm | RForbidden | RRedirect (cookie : bytes) | RPage | RPanic.
Record webapp := mkApp { pCtrl : ctrl; pSecret : bytes }.
(* cipher/randpass.go:15-21 RandPass *)
Definition randPass (rnd : bytes) : res bytes := if lenN rnd <? 32 then Panic else Ok (b64enc (takeN 32 rnd)).
Definition setPass (k : ctrl) (p : bytes) : ctrl := mkCtrl (tOpen k) (Some p) (tCfg k) (tSet k) (tStore k) (tFile k).
(* ctrlengine/app.go:50-85 loginHandler and 93-114 staticHandler; a panic in a handler is caught by net/http *)
Definition answer (C : Crypto) (L : certLib) (P : program) (opens : bytes -> bool) (offline : bool) (q : request) (a : webapp) : response * webapp :=
  match q with
  | QForm => (RForm, a)
  | QLogin [] _ _ => (RPanic, a)
  | QLogin (p :: _) e rnd =>
    match prepare C L P opens true true offline e (setPass (pCtrl a) p) with
    | (Err _, k, _) => (RForbidden, mkApp k (pSecret a))
    | (Panic, k, _) => (RPanic, mkApp k (pSecret a))
    | (Ok _, k, _) =>
      match randPass rnd with
      | Ok secret => (RRedirect secret, mkApp k secret)
      | _ => (RPanic, mkApp k (pSecret a))
      end
    end
  | QPage None => (RForbidden, a)
  | QPage (Some v) => if negb (beq v []) && negb (beq v (pSecret a)) then (RForbidden, a) else (RPage, a)
  end.
Fixpoint answers (C : Crypto) (L : certLib) (P : program) (opens : bytes -> bool) (offline : bool) (l : list request) (a : webapp) : list response * webapp :=
  match l with
  | [] => ([], a)
  | q :: l => let (r, a) := answer C L P opens offline q a in let (rs, a) := answers C L P opens offline l a in (r :: rs, a)
  end.
