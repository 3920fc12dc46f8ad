(* The completion of commands in the loop of mutectrl: ctrlengine/ctrlengine.go:296-306 and 331-340. *)
From Verif Require Import Base ConfigModel.
Local Open Scope N_scope.

(* cli.Command: the name, and the commands below it (Subcommands, None if nil) *)
Inductive command := Cmd (name : bytes) (subs : option (list command)).
(* ctrlengine/ctrlengine.go:296-306 buildCmdList *)
Fixpoint cmdOf (pre : bytes) (c : command) : list bytes :=
  match c with
  | Cmd n (Some l) => flat_map (cmdOf (n ++ [32])) l
  | Cmd n None => [pre ++ n]
  end.
Definition buildCmdList (l : list command) (pre : bytes) : list bytes := flat_map (cmdOf pre) l.
(* strings.HasPrefix *)
Fixpoint hasPrefix (s p : bytes) : bool :=
  match p, s with
  | [], _ => true
  | x :: p', y :: s' => (x =? y) && hasPrefix s' p'
  | _ :: _, [] => false
  end.
(* ctrlengine/ctrlengine.go:331-340 the completer: what is offered for the line typed *)
Definition complete (l : list command) (line : bytes) : list bytes := filter (fun c => hasPrefix c line) (buildCmdList l []).
(* ctrlengine/ctrlengine.go:375 the words with which the program is run for a line *)
Definition lineArgs (line : bytes) : list bytes := fields line.
