(* Comparing session states: uid/keyentry.go KeyEntryEqual, msg/session/session.go StateEqual.
   Pointers are numbers of places in a memory, or nil.  The fields of a KeyEntry that are not exported are not compared. *)
From Verif Require Import Base StoreModel.
Local Open Scope N_scope.

Definition ptr := option N.
(* msg/session/session.go:15-25 State as it is in memory: the two keys of the next session are pointers *)
Record gstate := mkG { gSess : N; gMsg : N; gMax : N; gTemp : keyEntry; gPub : keyEntry; gNext : ptr; gSeen : ptr; gNym : bytes; gInit : bool }.
Record memory := mkMem { mKey : N -> keyEntry; mState : N -> gstate }.

Definition keyEq (a b : keyEntry) : bool :=
  if negb (beq (keSuite a) (keSuite b)) then false
  else if negb (beq (keFunc a) (keFunc b)) then false
  else if negb (beq (keHash a) (keHash b)) then false
  else if negb (beq (kePub a) (kePub b)) then false
  else true.
(* uid/keyentry.go:42-59 KeyEntryEqual *)
Definition KeyEntryEqual (m : memory) (a b : ptr) : res bool :=
  match a, b with
  | None, None => Ok true
  | Some x, Some y => if x =? y then Ok true else Ok (keyEq (mKey m x) (mKey m y))
  | _, _ => Panic
  end.
(* msg/session/session.go:28-61 StateEqual; &a.RecipientTemp and &b.RecipientTemp are different places, since a and b are *)
Definition StateEqual (m : memory) (a b : ptr) : res bool :=
  match a, b with
  | None, None => Ok true
  | Some x, Some y =>
    if x =? y then Ok true
    else
      let s := mState m x in let t := mState m y in
      if negb (gSess s =? gSess t) then Ok false
      else if negb (gMsg s =? gMsg t) then Ok false
      else if negb (gMax s =? gMax t) then Ok false
      else if negb (keyEq (gTemp s) (gTemp t)) then Ok false
      else if negb (keyEq (gPub s) (gPub t)) then Ok false
      else
        do e1 <- KeyEntryEqual m (gNext s) (gNext t);
        if negb e1 then Ok false
        else
          do e2 <- KeyEntryEqual m (gSeen s) (gSeen t);
          if negb e2 then Ok false
          else if negb (beq (gNym s) (gNym t)) then Ok false
          else if negb (Bool.eqb (gInit s) (gInit t)) then Ok false
          else Ok true
  | _, _ => Panic
  end.
