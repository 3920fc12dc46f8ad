(* How mutecrypt and mutectrl end: cmd/mutecrypt/mutecrypt.go, cmd/mutectrl/mutectrl.go, util/interrupt/interrupt.go, and the
   method Close of both engines.
   An interleaving model of the three goroutines with the two unbuffered channels and the buffered channel of signals.  What the
   engine does is a list of actions on its database; a command that fails ends it early.  Reads and writes of the field that holds
   the database are atomic, and the bodies of the library functions are left out: the service guard client going offline and
   the overwriting of the passphrase (GuardModel has the former), and logging. *)
From Verif Require Import Base.

(* what the engine does with its database: prepare (it opens it if the field is nil), or a statement through the field *)
Inductive eact := AOpen | AUse.
(* cryptengine/cryptengine.go:881-888 and ctrlengine/ctrlengine.go:1410-1420 Close: compare with nil, close, set to nil *)
Inductive cpc := CCheck | CClose | CNil.
(* the engine goroutine: not started, running, in its deferred Close, sending its result on the ShutdownChannel, finished *)
Inductive epc := ENone | ERun (l : list eact) | EClosing (c : cpc) | ESend | EDone.
(* util/interrupt/interrupt.go:28-48 mainInterruptHandler: not started, in select, in a callback, sending on the ShutdownChannel *)
Inductive hpc := HNone | HIdle | HCall (c : cpc) | HSend.
(* the main goroutine: before signal.Notify, adding the handler, before the go statement, receiving, in its deferred Close,
   and after it; then the process ends with a status *)
Inductive mpc := MNew | MAdd | MStart | MWait | MClosing (c : cpc) | MFlush | MExit.
Record st := mkSt {
  sMain : mpc; sHand : hpc; sCalls : bool;        (* is the callback registered *)
  sEng : epc; sErr : option bytes;                (* the error of the engine *)
  sField : option nat; sNext : nat; sClosed : list nat;   (* ce.keyDB: number of the database handle; the handles closed *)
  sPend : bool;                                   (* a signal in interruptChannel, which holds one *)
  sGot : option (option bytes);                   (* what main received *)
  sCrash : bool; sKilled : bool }.                (* a panic; the default action of the signal *)
Definition init : st := mkSt MNew HNone false ENone None None 0 [] false None false false.
Definition final (s : st) : bool := sCrash s || sKilled s || match sMain s with MExit => true | _ => false end.

(* the field [f] of one step of Close: its new program counter (None: it has returned), field, closed handles, or a panic:
   the method Close of a nil pointer reads encDB of it *)
Inductive closed_ := CGo (c : option cpc) (field : option nat) (closed : list nat) | CPanic.
Definition closeStep (c : cpc) (field : option nat) (closed : list nat) : closed_ :=
  match c with
  | CCheck => match field with None => CGo None field closed | Some _ => CGo (Some CClose) field closed end
  | CClose => match field with None => CPanic | Some h => CGo (Some CNil) field (h :: closed) end
  | CNil => CGo None None closed
  end.

(* who takes the next step: the user pressing Ctrl+C, the handler receiving the signal, main handing over the callback, a step of
   the handler, of the engine, of main, a failing command, main receiving from the handler or from the engine *)
Inductive who := Sig | TakeSig | AddH | Hand | Eng | EngFail (e : bytes) | Main | JoinH | JoinE.
Section Step.
Variable defers : bool.            (* cryptengine/cryptengine.go:850: Start defers Close; ctrlengine/ctrlengine.go:1359 does not *)
Variable work : list eact.         (* what the engine is started for *)
Definition upd (s : st) (m : mpc) (h : hpc) (e : epc) : st :=
  mkSt m h (sCalls s) e (sErr s) (sField s) (sNext s) (sClosed s) (sPend s) (sGot s) (sCrash s) (sKilled s).
Definition setDB (s : st) (f : option nat) (n : nat) (cl : list nat) : st :=
  mkSt (sMain s) (sHand s) (sCalls s) (sEng s) (sErr s) f n cl (sPend s) (sGot s) (sCrash s) (sKilled s).
Definition crash (s : st) : st :=
  mkSt (sMain s) (sHand s) (sCalls s) (sEng s) (sErr s) (sField s) (sNext s) (sClosed s) (sPend s) (sGot s) true (sKilled s).
Definition setPend (s : st) (b : bool) : st :=
  mkSt (sMain s) (sHand s) (sCalls s) (sEng s) (sErr s) (sField s) (sNext s) (sClosed s) b (sGot s) (sCrash s) (sKilled s).
Definition setErr (s : st) (e : option bytes) : st :=
  mkSt (sMain s) (sHand s) (sCalls s) (sEng s) e (sField s) (sNext s) (sClosed s) (sPend s) (sGot s) (sCrash s) (sKilled s).
Definition receive (s : st) (r : option bytes) : st :=
  mkSt (MClosing CCheck) (sHand s) (sCalls s) (sEng s) (sErr s) (sField s) (sNext s) (sClosed s) (sPend s) (Some r) (sCrash s) (sKilled s).
(* the end of app.Run *)
Definition finish (s : st) : st := upd s (sMain s) (sHand s) (if defers then EClosing CCheck else ESend).
Definition stepClose (c : cpc) (next : option cpc -> st -> st) (s : st) : option st :=
  match closeStep c (sField s) (sClosed s) with
  | CPanic => Some (crash s)
  | CGo c' f cl => Some (next c' (setDB s f (sNext s) cl))
  end.
Definition step (w : who) (s : st) : option st :=
  if final s then None
  else match w with
  (* before signal.Notify the signal ends the process; afterwards it is put in the channel if there is room *)
  | Sig => match sMain s with
           | MNew => Some (mkSt (sMain s) (sHand s) (sCalls s) (sEng s) (sErr s) (sField s) (sNext s) (sClosed s) (sPend s) (sGot s) (sCrash s) true)
           | _ => Some (setPend s true)
           end
  (* util/interrupt/interrupt.go:34-42: without a callback the loop over them is empty *)
  | TakeSig => match sHand s with
               | HIdle => if sPend s then let s' := setPend s false in Some (upd s' (sMain s') (if sCalls s' then HCall CCheck else HSend) (sEng s')) else None
               | _ => None
               end
  (* util/interrupt/interrupt.go:44-45 and 61 *)
  | AddH => match sMain s, sHand s with
            | MAdd, HIdle => Some (mkSt MStart HIdle true (sEng s) (sErr s) (sField s) (sNext s) (sClosed s) (sPend s) (sGot s) (sCrash s) (sKilled s))
            | _, _ => None
            end
  | Hand => match sHand s with
            | HCall c => stepClose c (fun c' s' => upd s' (sMain s') (match c' with Some c' => HCall c' | None => HSend end) (sEng s')) s
            | _ => None
            end
  | Eng => match sEng s with
           | ERun [] => Some (finish s)
           | ERun (AOpen :: l) =>
             let s' := match sField s with None => setDB s (Some (sNext s)) (S (sNext s)) (sClosed s) | Some _ => s end in
             Some (upd s' (sMain s') (sHand s') (ERun l))
           | ERun (AUse :: l) => match sField s with None => Some (crash s) | Some _ => Some (upd s (sMain s) (sHand s) (ERun l)) end
           | EClosing c => stepClose c (fun c' s' => upd s' (sMain s') (sHand s') (match c' with Some c' => EClosing c' | None => ESend end)) s
           | _ => None
           end
  | EngFail e => match sEng s with ERun _ => Some (finish (setErr s (Some e))) | _ => None end
  (* cmd/mutecrypt/mutecrypt.go:23-46; util/interrupt/interrupt.go:55-59 *)
  | Main => match sMain s with
            | MNew => Some (upd s MAdd HIdle (sEng s))
            | MStart => Some (upd s MWait (sHand s) (ERun work))
            | MClosing c => stepClose c (fun c' s' => upd s' (match c' with Some c' => MClosing c' | None => MFlush end) (sHand s') (sEng s')) s
            | MFlush => Some (upd s MExit (sHand s) (sEng s))
            | _ => None
            end
  | JoinH => match sMain s, sHand s with MWait, HSend => let s' := receive s None in Some (upd s' (sMain s') HIdle (sEng s')) | _, _ => None end
  | JoinE => match sMain s, sEng s with MWait, ESend => let s' := receive s (sErr s) in Some (upd s' (sMain s') (sHand s') EDone) | _, _ => None end
  end.
Fixpoint run (l : list who) (s : st) : option st :=
  match l with [] => Some s | w :: l' => match step w s with Some s' => run l' s' | None => None end end.
End Step.
