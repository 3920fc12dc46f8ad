(* The sequential fuzzer: util/fuzzer/fuzzer.go.
   TestFunc is a function with a state of its own; it gets a copy of the data, so that it cannot change the data. *)
From Verif Require Import Base.
Local Open Scope N_scope.

(* util/fuzzer/fuzzer.go:50 mask *)
Definition maskOf (n : N) : N :=
  match n with 0 => 1 | 1 => 2 | 2 => 4 | 3 => 8 | 4 => 16 | 5 => 32 | 6 => 64 | _ => 128 end.
Fixpoint xorAt (n : nat) (m : N) (d : bytes) : bytes :=
  match d with
  | [] => []
  | x :: d' => match n with O => N.lxor x m :: d' | S n' => x :: xorAt n' m d' end
  end.
(* util/fuzzer/fuzzer.go:49-55 switchBit *)
Definition switchBit (d : bytes) (pos : Z) : res bytes :=
  if ((pos <? 0) || (Z.of_nat (List.length d) <=? pos / 8))%Z then Panic
  else Ok (xorAt (Z.to_nat (pos / 8)) (maskOf (Z.to_N (pos mod 8))) d).

Section Fuzz.
Variables E St : Type.
Variable testFunc : St -> bytes -> option E * St.
(* util/fuzzer/fuzzer.go:9-16; [fFunc] tells that TestFunc is set *)
Record fuzzer := mkFuzzer { fData : bytes; fStart : Z; fEnd : Z; fErrors : list (option E); fErrorCount : Z; fTestCount : Z; fFunc : bool }.
(* util/fuzzer/fuzzer.go:34-41 the loop, [n] rounds from position i on: the entries of Errors, ErrorCount and TestCount *)
Fixpoint fuzzLoop (d : bytes) (n : nat) (i : Z) (ec tc : Z) (st : St) : res (list (option E) * Z * Z * St) :=
  match n with
  | O => Ok ([], ec, tc, st)
  | S n' =>
    do x <- switchBit d i;
    let (r, st1) := testFunc st x in
    let ec1 := match r with Some _ => (ec + 1)%Z | None => ec end in
    do y <- fuzzLoop d n' (i + 1) ec1 (tc + 1) st1;
    match y with (rs, ec2, tc2, st2) => Ok (r :: rs, ec2, tc2, st2) end
  end.
(* util/fuzzer/fuzzer.go:20-46 Fuzz *)
Definition Fuzz (f : fuzzer) (st : St) : res (bool * fuzzer * St) :=
  if (match fData f with [] => true | _ => false end) || negb (fFunc f) then Panic
  else
    let l := (Z.of_nat (List.length (fData f)) * 8)%Z in
    let e := if ((l <? fEnd f) || (fEnd f =? 0))%Z then l else fEnd f in
    let s := if ((fStart f <? 0) || (l <? fStart f))%Z then 0%Z else fStart f in
    if (e - s <? 0)%Z then Panic     (* make with a negative length *)
    else
      do y <- fuzzLoop (fData f) (Z.to_nat (e - s)) s 0 0 st;
      match y with (rs, ec, tc, st') => Ok ((tc =? ec)%Z, mkFuzzer (fData f) s e rs ec tc (fFunc f), st') end.
End Fuzz.
