(* The dialogue between mutectrl and the command loop of mutecrypt when a contact is added: cryptengine/cryptengine.go (the loop
   and the commands used), ctrlengine/contact.go mutecryptAddContact.
   Texts are lists of code points as in IdentityModel.  What the commands do to the key database is a parameter.  The packages
   urfave/cli and flag are not part of /repo; the part used here follows their documented behaviour: flags come first, a flag
   with one or two dashes, a value in the same or in the next word, --help and -h known to every command.  json2 hands the
   error message of a server on as it is, so error texts are arbitrary.  Pipes have room for the short texts written; the limit
   of bufio.Scanner is not reached by identities (at most 254 bytes).  A failing write, Pipe or Start is left out. *)
From Verif Require Import Base IdentityModel CodecModel.
Delimit Scope string_scope with string.
Local Open Scope N_scope.
Notation text := (list N) (only parsing).

(* strings.Fields *)
Fixpoint wordsF (s cur : text) : list text :=
  match s with
  | [] => match cur with [] => [] | _ => [rev cur] end
  | r :: s' => if isSpace r then match cur with [] => wordsF s' [] | _ => rev cur :: wordsF s' [] end else wordsF s' (r :: cur)
  end.
Definition words (s : text) : list text := wordsF s [].

(* the lines a bufio.Scanner finds in a text that ends with a newline; a final carriage return is dropped *)
Fixpoint linesF (s cur : text) : list text :=
  match s with
  | [] => []
  | r :: s' => if r =? 10 then chop_cr (rev cur) :: linesF s' [] else linesF s' (r :: cur)
  end.
Definition linesOf (s : text) : list text := linesF s [].

(* package flag: the word as a flag *)
Inductive flagWord := NoFlag | EndOfFlags | BadFlag | AFlag (name : text) (value : option text).
Fixpoint cutEq (s : text) : text * option text :=
  match s with [] => ([], None) | c :: s' => if c =? 61 then ([], Some s') else let (a, b) := cutEq s' in (c :: a, b) end.
Definition flagName (n : text) : flagWord :=
  match n with
  | [] => BadFlag
  | c :: _ => if (c =? 45) || (c =? 61) then BadFlag else let (a, b) := cutEq n in AFlag a b
  end.
Definition flagOf (w : text) : flagWord :=
  match w with
  | 45 :: 45 :: [] => EndOfFlags
  | 45 :: 45 :: n => flagName n
  | 45 :: (_ :: _) as n => flagName (tl n)
  | _ => NoFlag
  end.
(* strconv.ParseBool *)
Definition parseBool (v : text) : option bool :=
  if existsb (beq v) [str "1"; str "t"; str "T"; str "TRUE"; str "true"; str "True"] then Some true
  else if existsb (beq v) [str "0"; str "f"; str "F"; str "FALSE"; str "false"; str "False"] then Some false
  else None.
Fixpoint flagKind (n : text) (spec : list (text * bool)) : option bool :=
  match spec with [] => None | (n', k) :: spec' => if beq n' n then Some k else flagKind n spec' end.
Definition consFlag (f : text * text) (r : res (list (text * text) * list text)) : res (list (text * text) * list text) :=
  do (fs, rest) <- r; Ok (f :: fs, rest).
(* FlagSet.Parse; [spec] has true for flags with a value and false for boolean flags *)
Fixpoint parseFlags (spec : list (text * bool)) (args : list text) : res (list (text * text) * list text) :=
  match args with
  | [] => Ok ([], [])
  | a :: rest =>
    match flagOf a with
    | NoFlag => Ok ([], a :: rest)
    | EndOfFlags => Ok ([], rest)
    | BadFlag => Err "bad flag syntax"
    | AFlag n v =>
      match flagKind n spec with
      | None => Err "flag provided but not defined"
      | Some true =>
        match v with
        | Some v => consFlag (n, v) (parseFlags spec rest)
        | None => match rest with [] => Err "flag needs an argument" | v :: rest' => consFlag (n, v) (parseFlags spec rest') end
        end
      | Some false =>
        match parseBool (match v with Some v => v | None => str "true" end) with
        | None => Err "invalid boolean value"
        | Some b => consFlag (n, if b then str "true" else str "false") (parseFlags spec rest)
        end
      end
    end
  end.
(* the last value given for a flag *)
Definition flagVal (n : text) (fs : list (text * text)) : option text :=
  fold_left (fun acc f => if beq (fst f) n then Some (snd f) else acc) fs None.
Definition flagTrue (n : text) (fs : list (text * text)) : bool :=
  match flagVal n fs with Some v => beq v (str "true") | None => false end.

(* what the execution of one command line tells the loop: the error of app.Run, or ce.err, or the request to exit; Crashed is
   a panic, which ends the process with its text on stderr *)
Inductive outcome := Done | Failed (e : text) | AppFailed (e : text) | Quit | Crashed (e : text).
Definition READY : text := str "READY.".
Definition QUITTING : text := str "QUITTING".

Section Loop.
Variable St : Type.
Variable action : list text -> St -> outcome * St.   (* app.Run on the words of a line, and then ce.err *)

(* the mutecrypt process: whether it still runs, its exit status, the lines on stderr not yet read, its state, and for the
   theorems the list of the commands it was given *)
Record proc := mkProc { pRuns : bool; pFail : bool; pOut : list text; pState : St; pTrace : list (list text) }.
Definition say (p : proc) (out : text) : proc := mkProc (pRuns p) (pFail p) (pOut p ++ linesOf (out ++ [10])) (pState p) (pTrace p).
(* cryptengine/cryptengine.go:116-147 the body of the loop for one line *)
Definition loopLine (p : proc) (line : text) : proc :=
  if negb (pRuns p) then p
  else match line with
  | [] => p
  | _ =>
    let (o, s) := action (words line) (pState p) in
    let p1 := mkProc true false (pOut p) s (pTrace p ++ [words line]) in
    match o with
    | AppFailed e => say p1 e
    | Failed e => say (say p1 e) READY
    | Done => say p1 READY
    | Quit => let q := say p1 QUITTING in mkProc false false (pOut q) (pState q) (pTrace q)
    | Crashed e => let q := say p1 e in mkProc false true (pOut q) (pState q) (pTrace q)
    end
  end.

(* how the dialogue ends for mutectrl: with cmd.Wait, with a line as error, or not at all (it waits for a line) *)
Inductive answer := Exited (ok : bool) | Reported (line : text) | Waits.
(* ctrlengine/contact.go:108-119 and the like: write a command, read one line.  When mutecrypt has gone Scan returns false
   without an error and mutectrl goes on *)
Definition request (cmd expect : text) (k : proc -> answer * proc) (p : proc) : answer * proc :=
  let p := fold_left loopLine (linesOf (cmd ++ [10])) p in
  match pOut p with
  | line :: out =>
    let p := mkProc (pRuns p) (pFail p) out (pState p) (pTrace p) in
    if beq line expect then k p else (Reported line, p)
  | [] => if pRuns p then (Waits, p) else k p
  end.
(* ctrlengine/contact.go:33-196 mutecryptAddContact *)
Definition cmdSync (domain : text) : text := str "hashchain sync --domain " ++ domain.
Definition cmdValidate (domain : text) : text := str "hashchain validate --domain " ++ domain.
Definition cmdSearch (id : text) : text := str "hashchain search --id " ++ id.
Definition cmdFetch (id : text) : text := str "keyinit fetch --id " ++ id.
Definition mutecryptAddContact (id domain : text) (s : St) : answer * proc :=
  request (cmdSync domain) READY
  (request (cmdValidate domain) READY
  (request (cmdSearch (str "keyserver@" ++ domain)) READY
  (request (cmdSearch id) READY
  (request (cmdFetch id) READY
  (request (str "quit") QUITTING
  (fun p => if pRuns p then (Waits, p) else (Exited (negb (pFail p)), p)))))))
  (mkProc true false [] s []).
End Loop.
Arguments pRuns {St}. Arguments pFail {St}. Arguments pOut {St}. Arguments pState {St}. Arguments pTrace {St}. Arguments mkProc {St}.

Section Commands.
Variable St : Type.
Variable prepare : St -> option text * St.     (* cryptengine/cryptengine.go:53-98 prepare(c, true): an error or nil *)
Variable sync validate fetchInit : text -> St -> outcome * St.      (* the operations: Done, Failed or Crashed *)
Variable search : text -> bool -> St -> outcome * St.
Variable other : list text -> St -> outcome * St.   (* all other commands *)
Definition helpFlags : list (text * bool) := [(str "help", false); (str "h", false)].
(* a command of urfave/cli with one mandatory flag: flags, --help, superfluous arguments, the mandatory flag, prepare, action *)
Definition command (flags : list (text * bool)) (need : text) (act : text -> list (text * text) -> St -> outcome * St) (args : list text) (s : St) : outcome * St :=
  match parseFlags (flags ++ helpFlags) args with
  | Ok (fs, rest) =>
    if flagTrue (str "help") fs || flagTrue (str "h") fs then (Done, s)
    else match rest with
    | _ :: _ => (AppFailed (str "superfluous argument(s): " ++ concat rest), s)
    | [] =>
      match flagVal need fs with
      | None => (AppFailed (str "option is mandatory"), s)
      | Some v =>
        match prepare s with
        | (Some e, s1) => (AppFailed e, s1)
        | (None, s1) => act v fs s1
        end
      end
    end
  | _ => (AppFailed (str "incorrect usage"), s)
  end.
(* cryptengine/cryptengine.go:597-618, 643-711 and 830-842: the commands used by mutecryptAddContact *)
Definition cryptAction (args : list text) (s : St) : outcome * St :=
  match args with
  | a :: b :: rest =>
    if beq a (str "hashchain") && beq b (str "sync") then command [(str "domain", true)] (str "domain") (fun v _ => sync v) rest s
    else if beq a (str "hashchain") && beq b (str "validate") then command [(str "domain", true)] (str "domain") (fun v _ => validate v) rest s
    else if beq a (str "hashchain") && beq b (str "search") then
      command [(str "id", true); (str "search-only", false)] (str "id") (fun v fs => search v (flagTrue (str "search-only") fs)) rest s
    else if beq a (str "keyinit") && beq b (str "fetch") then command [(str "id", true)] (str "id") (fun v _ => fetchInit v) rest s
    else other args s
  | [a] => if beq a (str "quit") then (Quit, s) else other args s
  | [] => other args s
  end.
Definition addContact (id domain : text) (s : St) : answer * proc St := mutecryptAddContact St cryptAction id domain s.
End Commands.
