(* Tables of the embedded SQLite databases (msgdb, keydb, walletstore).

   A table with an INTEGER PRIMARY KEY is a list of rows with their row ids.  The
   model covers exactly the statement shapes used by the repository: INSERT with the
   row id chosen by SQLite, UPDATE and DELETE with a WHERE condition, SELECT of one row
   and SELECT of all rows.  A SELECT of one row without ORDER BY, or with ORDER BY the
   row id, returns the matching row with the smallest row id (SQLite scans a table in
   row id order; the unique indexes of the schema match at most one row).
   Not modelled: disk errors, SQL type conversions, row ids reaching 2^63-1. *)
From Verif Require Import Base.
From Coq Require Import Sorting.Sorted.
Local Open Scope N_scope.

Definition tbl (A : Type) := list (N * A).

(* The row id SQLite chooses for a table whose key is INTEGER PRIMARY KEY without
   AUTOINCREMENT: one more than the largest id in use, 1 for an empty table. *)
Definition nextId {A} (t : tbl A) : N := 1 + fold_right N.max 0 (map fst t).
(* INSERT INTO t VALUES (a) *)
Definition tins {A} (a : A) (t : tbl A) : tbl A := t ++ [(nextId t, a)].
(* UPDATE t SET f WHERE p *)
Definition tupd {A} (p : N -> A -> bool) (f : A -> A) (t : tbl A) : tbl A :=
  map (fun r => if p (fst r) (snd r) then (fst r, f (snd r)) else r) t.
(* DELETE FROM t WHERE p *)
Definition tdel {A} (p : N -> A -> bool) (t : tbl A) : tbl A :=
  filter (fun r => negb (p (fst r) (snd r))) t.
(* SELECT * FROM t WHERE p *)
Definition tsel {A} (p : N -> A -> bool) (t : tbl A) : tbl A :=
  filter (fun r => p (fst r) (snd r)) t.
(* SELECT * FROM t WHERE p ORDER BY id ASC LIMIT 1 *)
Fixpoint tmin {A} (p : N -> A -> bool) (t : tbl A) : option (N * A) :=
  match t with
  | [] => None
  | r :: t' =>
      if p (fst r) (snd r)
      then match tmin p t' with
           | Some r' => if fst r' <? fst r then Some r' else Some r
           | None => Some r
           end
      else tmin p t'
  end.
(* SELECT * FROM t WHERE id=? *)
Definition tget {A} (id : N) (t : tbl A) : option A :=
  match tmin (fun i _ => i =? id) t with Some (_, a) => Some a | None => None end.
(* the number of rows a condition matches (RowsAffected, existence checks) *)
Definition thas {A} (p : N -> A -> bool) (t : tbl A) : bool := existsb (fun r => p (fst r) (snd r)) t.

(* Row ids are increasing in the order of insertion; ids start at 1. *)
Definition idsOk {A} (t : tbl A) : Prop :=
  StronglySorted N.lt (map fst t) /\ Forall (fun i => 0 < i) (map fst t).
