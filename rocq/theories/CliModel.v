(* The command lines that mutectrl builds for mutecrypt and muteproto, and how these two programs read them: ctrlengine/db.go,
   ctrlengine/msg.go, ctrlengine/uid.go, ctrlengine/upkeep.go, cryptengine/cryptengine.go, protoengine/protoengine.go,
   util/descriptors.
   urfave/cli and package flag as in DialogModel (FlagSet.Parse is parseFlags).  The command lines below have their options
   directly after the name of the command, so the reordering of arguments done by urfave/cli changes nothing.  Shell quoting plays
   no role: os/exec hands the words over as they are.  A word with a NUL byte, which cannot be handed over, is left out.
   Integer options are read in base 10 (the flag package also knows prefixes like 0x, which strconv.Itoa never writes). *)
From Verif Require Import Base IdentityModel MixClientModel PipeModel DialogModel.
Local Open Scope N_scope.

(* a command of a program: its words, its options (true: with a value), those of them that are integers, the mandatory ones *)
Record cmd := mkCmd { cPath : list bytes; cFlags : list (bytes * bool); cInts : list bytes; cNeed : list bytes }.
Record cliApp := mkApp { aFlags : list (bytes * bool); aCmds : list cmd }.
(* what a program was asked to do: the global options given, the command, its options given *)
Record cliCall := mkCall { kGlobals : list (bytes * bytes); kCmd : list bytes; kFlags : list (bytes * bytes) }.

Fixpoint after (path args : list bytes) : option (list bytes) :=
  match path, args with
  | [], _ => Some args
  | p :: path', a :: args' => if beq p a then after path' args' else None
  | _ :: _, [] => None
  end.
Fixpoint findCmd (cs : list cmd) (args : list bytes) : option (cmd * list bytes) :=
  match cs with
  | [] => None
  | c :: cs' => match after (cPath c) args with Some rest => Some (c, rest) | None => findCmd cs' args end
  end.
Definition isInt (v : bytes) : bool := match parseInt v with Some _ => true | None => false end.
Definition versionFlags : list (bytes * bool) := [(str "version", false); (str "v", false)].
Definition helpAsked (fs : list (bytes * bytes)) : bool :=
  existsb (fun n => flagTrue n fs) [str "help"; str "h"; str "version"; str "v"].
Definition isSet (n : bytes) (fs : list (bytes * bytes)) : bool := match flagVal n fs with Some _ => true | None => false end.
(* cli.App.Run and cli.Command.Run with the Before functions of the commands: options, superfluous arguments, mandatory options.
   Without a command the program starts its loop (kCmd = []).  Asking for help or for the version runs no command: Err.  Words
   that are no command: mutecrypt reports them as unknown (cryptengine/cryptengine.go:103-107), muteproto shows its help: Err. *)
Definition cliRunW (int : bytes -> bool) (a : cliApp) (args : list bytes) : res cliCall :=
  match parseFlags (aFlags a ++ helpFlags ++ versionFlags) args with
  | Ok (gs, rest) =>
    if helpAsked gs then Err "help"
    else match rest with
    | [] => Ok (mkCall gs [] [])
    | _ =>
      match findCmd (aCmds a) rest with
      | None => Err "unknown command"
      | Some (c, args') =>
        match parseFlags (cFlags c ++ helpFlags) args' with
        | Ok (fs, more) =>
          if negb (forallb (fun f => if existsb (beq (fst f)) (cInts c) then int (snd f) else true) fs) then Err "invalid value"
          else if helpAsked fs then Err "help"
          else match more with
          | _ :: _ => Err "superfluous argument(s)"
          | [] => if forallb (fun n => isSet n fs) (cNeed c) then Ok (mkCall gs (cPath c) fs) else Err "option is mandatory"
          end
        | Err e => Err e
        | Panic => Panic
        end
      end
    end
  | Err e => Err e
  | Panic => Panic
  end.
Definition cliRun := cliRunW isInt.
(* cli.Context.Int *)
Definition ctxInt (n : bytes) (c : cliCall) : option Z := match flagVal n (kFlags c) with Some v => parseInt v | None => None end.

(* util/descriptors/descriptors.go:16-47 *)
Definition fdFlags : list (bytes * bool) :=
  [(str "input-fd", true); (str "output-fd", true); (str "status-fd", true); (str "passphrase-fd", true); (str "command-fd", true)].
Definition fdDefault (n : bytes) : bytes :=
  if beq n (str "input-fd") then str "stdin" else if beq n (str "output-fd") then str "stdout" else if beq n (str "status-fd") then str "stderr"
  else if beq n (str "passphrase-fd") then str "3" else str "4".
(* util/descriptors/descriptors.go:64-94 parseFDOption: the number of the descriptor *)
Definition parseFDOption (gs : list (bytes * bytes)) (name : bytes) : option Z :=
  let fs := match flagVal name gs with Some v => v | None => fdDefault name end in
  if beq fs (str "stdin") then Some 0%Z
  else if beq fs (str "stdout") then Some 1%Z
  else if beq fs (str "stderr") then Some 2%Z
  else parseInt fs.

(* cryptengine/cryptengine.go:155-196 and 207-844 *)
Definition cmdD (p : list bytes) (flags : list (bytes * bool)) (need : list bytes) : cmd := mkCmd p flags [] need.
Definition idFlag := (str "id", true).
Definition domainFlag := (str "domain", true).
Definition mutecrypt : cliApp := mkApp
  ([(str "homedir", true); (str "keyserver", false); (str "keyhost", true); (str "keyport", true)] ++ fdFlags ++
   [(str "loglevel", true); (str "logdir", true); (str "logconsole", false)])
  [mkCmd [str "db"; str "create"] [(str "iterations", true)] [str "iterations"] [];
   mkCmd [str "db"; str "rekey"] [(str "iterations", true)] [str "iterations"] [];
   cmdD [str "db"; str "vacuum"] [] [];
   cmdD [str "db"; str "version"] [] [];
   cmdD [str "caps"; str "get"] [domainFlag; (str "host", true)] [str "domain"];
   cmdD [str "caps"; str "show"] [domainFlag; (str "host", true)] [str "domain"];
   cmdD [str "uid"; str "generate"] [idFlag] [str "id"];
   cmdD [str "uid"; str "register"] [idFlag; (str "token", true)] [str "id"; str "token"];
   cmdD [str "uid"; str "genupdate"] [idFlag] [str "id"];
   cmdD [str "uid"; str "update"] [idFlag; (str "token", true)] [str "id"; str "token"];
   cmdD [str "uid"; str "delete"] [idFlag; (str "force", false)] [str "id"];
   cmdD [str "uid"; str "list"] [] [];
   cmdD [str "keyinit"; str "add"] [idFlag; (str "mixaddress", true); (str "nymaddress", true); (str "token", true)]
     [str "id"; str "mixaddress"; str "nymaddress"; str "token"];
   cmdD [str "keyinit"; str "fetch"] [idFlag] [str "id"];
   cmdD [str "keyinit"; str "flush"] [idFlag] [str "id"];
   cmdD [str "hashchain"; str "sync"] [domainFlag] [str "domain"];
   cmdD [str "hashchain"; str "validate"] [domainFlag] [str "domain"];
   cmdD [str "hashchain"; str "search"] [idFlag; (str "search-only", false)] [str "id"];
   cmdD [str "hashchain"; str "lookup"] [idFlag] [str "id"];
   cmdD [str "hashchain"; str "show"] [domainFlag] [str "domain"];
   cmdD [str "hashchain"; str "delete"] [domainFlag] [str "domain"];
   cmdD [str "encrypt"] [(str "from", true); (str "to", true); (str "sign", false); (str "nymaddress", true)] [str "from"; str "to"; str "nymaddress"];
   cmdD [str "decrypt"] [] [];
   cmdD [str "quit"] [] []].
(* protoengine/protoengine.go:73-198; the option last-message-time is a text, read with c.Int, which is 0 for a bad number *)
Definition muteproto : cliApp := mkApp
  ([(str "homedir", true); (str "acchost", true)] ++ fdFlags ++ [(str "loglevel", true); (str "logdir", true); (str "logconsole", false)])
  [mkCmd [str "create"] [(str "mindelay", true); (str "maxdelay", true); (str "token", true); (str "nymaddress", true)]
     [str "mindelay"; str "maxdelay"] [str "token"; str "nymaddress"];
   cmdD [str "deliver"] [] [];
   cmdD [str "fetch"] [(str "server", true); (str "last-message-time", true)] [str "server"]].

(* the global options of mutectrl that it hands on *)
Record genv := mkGenv { gHome : bytes; gLevel : bytes; gDir : bytes; gConsole : bool }.
Definition common (e : genv) : list bytes := [str "--homedir"; gHome e; str "--loglevel"; gLevel e; str "--logdir"; gDir e].
Definition hostArgs (host : bytes) : list bytes :=
  match host with [] => [] | _ => [str "--keyhost"; host; str "--keyport"; str ":8080"] end.

(* the processes mutectrl starts *)
Inductive request :=
| RCreate (outputFD iterations : Z)              (* ctrlengine/db.go:28-75 createKeyDB *)
| RRekey (iterations : Z)                        (* ctrlengine/db.go:176-183 rekeyKeyDB *)
| RVacuum (mode : bytes)                         (* ctrlengine/db.go:338-370 mutecryptDBVacuum *)
| RVersion                                       (* ctrlengine/db.go:427-434 mutecryptDBVersion *)
| REncrypt (from to nym : bytes) (sign : bool)   (* ctrlengine/msg.go:41-66 mutecryptEncrypt *)
| RDecrypt                                       (* ctrlengine/msg.go:649-660 mutecryptDecrypt *)
| RSearch (id host : bytes)                      (* ctrlengine/uid.go:269-289 mutecryptHashchainSearch *)
| RDelete (id : bytes)                           (* ctrlengine/uid.go:456-465 mutecryptDeleteUID *)
| RSync (domain host : bytes)                    (* ctrlengine/upkeep.go:401-420 mutecryptHashchainSync *)
| RValidate (domain host : bytes)                (* ctrlengine/upkeep.go:437-456 mutecryptHashchainValidate *)
| RLoop (host : bytes)                           (* ctrlengine/uid.go:52-62 mutecryptNewUID: the process for command lines *)
| PCreate (minDelay maxDelay : Z) (token nym : bytes)   (* ctrlengine/msg.go:196-212 muteprotoCreate *)
| PDeliver                                       (* ctrlengine/msg.go:234-244 muteprotoDeliver *)
| PFetch (server : bytes) (lastMessageTime : Z). (* ctrlengine/msg.go:478-494 muteprotoFetch *)
Definition program (r : request) : cliApp := match r with PCreate _ _ _ _ | PDeliver | PFetch _ _ => muteproto | _ => mutecrypt end.
Definition argsOf (e : genv) (r : request) : list bytes :=
  match r with
  | RCreate fd it =>
    [str "--output-fd"; formatInt fd; str "--passphrase-fd"; str "stdin"] ++ common e ++
    (if gConsole e then [str "--logconsole"] else []) ++ [str "db"; str "create"; str "--iterations"; formatInt it]
  | RRekey it => [str "--passphrase-fd"; str "stdin"] ++ common e ++ [str "db"; str "rekey"; str "--iterations"; formatInt it]
  | RVacuum mode => common e ++ [str "db"; str "vacuum"] ++ (match mode with [] => [] | _ => [str "--auto-vacuum"; mode] end)
  | RVersion => common e ++ [str "db"; str "version"]
  | REncrypt from to nym sign =>
    common e ++ [str "encrypt"; str "--from"; from; str "--to"; to; str "--nymaddress"; nym] ++ (if sign then [str "--sign"] else [])
  | RDecrypt => common e ++ [str "decrypt"]
  | RSearch id host => common e ++ hostArgs host ++ [str "hashchain"; str "search"; str "--search-only"; str "--id"; id]
  | RDelete id => common e ++ [str "uid"; str "delete"; str "--id"; id; str "--force"]
  | RSync d host => common e ++ hostArgs host ++ [str "hashchain"; str "sync"; str "--domain"; d]
  | RValidate d host => common e ++ hostArgs host ++ [str "hashchain"; str "validate"; str "--domain"; d]
  | RLoop host => common e ++ hostArgs host
  | PCreate mn mx token nym =>
    common e ++ [str "create"; str "--mindelay"; formatInt mn; str "--maxdelay"; formatInt mx; str "--token"; token; str "--nymaddress"; nym]
  | PDeliver => common e ++ [str "deliver"]
  | PFetch server t => common e ++ [str "fetch"; str "--server"; server; str "--last-message-time"; formatInt t]
  end.

(* what is put into the new process: its standard input, and os/exec makes entry i of ExtraFiles descriptor 3+i.  [Secret] is the
   passphrase (for muteprotoFetch the private key of the account), [Data] the message, [Lines] the commands.
   The places of cmd.StdinPipe and cmd.ExtraFiles in the functions above *)
Inductive stream := Secret | Data | Lines.
Definition stdinOf (r : request) : option stream :=
  match r with RCreate _ _ | RRekey _ => Some Secret | REncrypt _ _ _ _ | RDecrypt | PCreate _ _ _ _ | PDeliver => Some Data | _ => None end.
Definition extraFiles (r : request) : list stream :=
  match r with
  | RCreate _ _ | RRekey _ | PCreate _ _ _ _ | PDeliver => []
  | RLoop _ | PFetch _ _ => [Secret; Lines]
  | _ => [Secret]
  end.
Definition heldBy (r : request) (fd : Z) : option stream :=
  if (fd =? 0)%Z then stdinOf r else if (3 <=? fd)%Z then nth_error (extraFiles r) (Z.to_nat (fd - 3)) else None.

(* the command lines that mutecryptNewUID writes to the process started by RLoop: ctrlengine/uid.go:85-88, 118-123, 164-168,
   193-197, 218-224, 246 *)
Inductive lineReq :=
| LGenerate (id : bytes) | LCaps (domain host : bytes) | LRegister (id token : bytes) | LDelete (id : bytes)
| LAdd (id mix nym token : bytes) | LQuit.
(* strings.Join(ws, " ") *)
Fixpoint joinSp (ws : list bytes) : bytes :=
  match ws with [] => [] | [w] => w | w :: ws' => w ++ 32 :: joinSp ws' end.
Definition written (l : lineReq) : bytes :=
  match l with
  | LGenerate id => joinSp [str "uid"; str "generate"; str "--id"; id ++ [10]]
  | LCaps d host => joinSp ([str "caps"; str "show"; str "--domain"; d] ++ (match host with [] => [] | _ => [str "--host"; host] end) ++ [[10]])
  | LRegister id token => joinSp [str "uid"; str "register"; str "--id"; id; str "--token"; token ++ [10]]
  | LDelete id => joinSp [str "uid"; str "delete"; str "--force"; str "--id"; id ++ [10]]
  | LAdd id mix nym token => joinSp [str "keyinit"; str "add"; str "--id"; id; str "--mixaddress"; mix; str "--nymaddress"; nym; str "--token"; token ++ [10]]
  | LQuit => str "quit" ++ [10]
  end.
(* cryptengine/cryptengine.go:114-126 the loop: every line is split into words and run like a command line, an empty line skipped *)
Definition loopCalls (s : bytes) : list (res cliCall) :=
  map (fun l => cliRun mutecrypt (words l)) (filter (fun l => match l with [] => false | _ => true end) (linesOf s)).

(* ctrlengine/db.go:372-380 dbVacuum: both databases are to be rebuilt.  [msgVacuum] is the rebuilding of the message database,
   [keyVacuum] what mutecrypt does if it is asked to run db vacuum *)
Section Vacuum.
Variables M K : Type.
Variable msgVacuum : bytes -> M -> res unit * M.
Variable keyVacuum : K -> res unit * K.
Definition mutecryptDBVacuum (e : genv) (mode : bytes) (k : K) : res unit * K :=
  match cliRun mutecrypt (argsOf e (RVacuum mode)) with
  | Ok c => if match kCmd c with [a; b] => beq a (str "db") && beq b (str "vacuum") | _ => false end then keyVacuum k else (Ok tt, k)
  | Err x => (Err x, k)
  | Panic => (Panic, k)
  end.
Definition dbVacuum (e : genv) (mode : bytes) (s : M * K) : res unit * (M * K) :=
  match msgVacuum mode (fst s) with
  | (Ok _, m) => let (r, k) := mutecryptDBVacuum e mode (snd s) in (r, (m, k))
  | (r, m) => (r, (m, snd s))
  end.
(* ctrlengine/ctrlengine.go:626-628 the command db vacuum of mutectrl *)
Definition ctrlVacuum (e : genv) (s : M * K) : res unit * (M * K) := dbVacuum e (str "FULL") s.
End Vacuum.
