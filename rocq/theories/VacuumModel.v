(* Maintenance of the encrypted databases: encdb/encdb.go:191-257 and encdb/util.go:19-29, used unchanged by msgdb/msgdb.go:533-556
   and keydb/keydb.go:372-395.
   Of a database file we keep the auto_vacuum mode, the number of free pages and the data; of the open connection the mode that
   was last asked for.  The statements behave as the documentation and the source of SQLite have it:
   - PRAGMA auto_vacuum gives the mode of the file (0, 1, 2);
   - PRAGMA auto_vacuum = m notes m for the next VACUUM of the connection; between FULL and INCREMENTAL, and only there, the file
     changes at once (the file already has tables);
   - VACUUM rewrites the file in the mode noted on the connection, if there is one, and leaves no free pages;
   - PRAGMA incremental_vacuum(n) gives back up to n free pages; a number that is not positive or not below 2^31 stands for 2^31-1.
   How many of these pages one Exec gives back is up to the driver, and an argument here.  Every statement can fail, which is an
   argument too; a statement that fails changes nothing.  The statements of a call run on the one connection that the pool keeps,
   as each of them has ended before the next begins. *)
From Verif Require Import Base IdentityModel MsgDBModel.
Local Open Scope N_scope.

Record vdb := mkVdb { vMode : N; vNext : option N; vFree : N; vRows : bytes }.

(* encdb/encdb.go:191-195 *)
Definition autoVacuumModes : list bytes := [str "NONE"; str "FULL"; str "INCREMENTAL"].
(* autoVacuumModes[av], encdb/encdb.go:204, 225, 249 *)
Definition modeName (av : N) : res bytes := match nth_error autoVacuumModes (N.to_nat av) with Some s => Ok s | None => Panic end.
(* encdb/util.go:19-29 containsString *)
Fixpoint containsString (sa : list bytes) (s : bytes) : bool :=
  match sa with [] => false | v :: sa' => if beq v s then true else containsString sa' s end.

(* the statements *)
Definition modeNo (m : bytes) : N := if beq m (str "FULL") then 1 else if beq m (str "INCREMENTAL") then 2 else 0.
Definition pragmaSet (k : N) (d : vdb) : vdb := mkVdb (if Bool.eqb (vMode d =? 0) (k =? 0) then k else vMode d) (Some k) (vFree d) (vRows d).
Definition vacuumCmd (d : vdb) : vdb := mkVdb (match vNext d with Some k => k | None => vMode d end) (vNext d) 0 (vRows d).
Definition incrLimit (pages : Z) : N := if (pages <=? 0)%Z || (2 ^ 31 <=? pages)%Z then 2 ^ 31 - 1 else Z.to_N pages.
Definition incrCmd (pages : Z) (k : N) (d : vdb) : vdb := mkVdb (vMode d) (vNext d) (vFree d - N.min k (incrLimit pages)) (vRows d).

(* encdb/encdb.go:197-210 Status; [q1] and [q2]: the queries succeed *)
Definition encStatus (q1 q2 : bool) (d : vdb) : res (bytes * N) :=
  if negb q1 then Err "sql"
  else match modeName (vMode d) with
  | Ok s => if q2 then Ok (s, vFree d) else Err "sql"
  | Err e => Err e
  | Panic => Panic
  end.
(* encdb/encdb.go:212-238 Vacuum; [q], [s], [v]: the query, the change of the mode and VACUUM succeed *)
Definition encVacuum (q s v : bool) (mode : bytes) (d : vdb) : res unit * vdb :=
  let rebuild d := if v then (Ok tt, vacuumCmd d) else (Err "sql", d) in
  if isNil mode then rebuild d
  else if negb (containsString autoVacuumModes mode) then (Err "encdb: unknown auto_vacuum mode", d)
  else if negb q then (Err "sql", d)
  else match modeName (vMode d) with
  | Ok cur => if beq cur mode then rebuild d else if s then rebuild (pragmaSet (modeNo mode) d) else (Err "sql", d)
  | Err e => (Err e, d)
  | Panic => (Panic, d)
  end.
(* encdb/encdb.go:240-257 Incremental; [q], [x]: the query and the statement succeed; [k]: pages the driver gives back at most *)
Definition encIncremental (q x : bool) (k : N) (pages : Z) (d : vdb) : res unit * vdb :=
  if negb q then (Err "sql", d)
  else match modeName (vMode d) with
  | Ok cur => if negb (beq cur (str "INCREMENTAL")) then (Err "encdb: current auto_vacuum mode is not INCREMENTAL", d)
              else if x then (Ok tt, incrCmd pages k d) else (Err "sql", d)
  | Err e => (Err e, d)
  | Panic => (Panic, d)
  end.

(* What happens to a database: it is written to, closed and opened again (the connection forgets what was asked for), and kept up. *)
Inductive vop :=
| VWrite (free : N) (rows : bytes)
| VReopen
| VVacuum (q s v : bool) (mode : bytes)
| VIncr (q x : bool) (k : N) (pages : Z).
Definition vstep (d : vdb) (o : vop) : vdb :=
  match o with
  | VWrite f r => mkVdb (vMode d) (vNext d) f r
  | VReopen => mkVdb (vMode d) None (vFree d) (vRows d)
  | VVacuum q s v m => snd (encVacuum q s v m d)
  | VIncr q x k p => snd (encIncremental q x k p d)
  end.
(* encdb/encdb.go:55-126 Create: SQLite's default is mode NONE *)
Definition newVdb : vdb := mkVdb 0 None 0 [].
Definition vrun (ops : list vop) : vdb := fold_left vstep ops newVdb.
