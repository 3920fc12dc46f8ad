(* The text buffer and the editor widget (tui/textbuffer/textbuffer.go, tui/editor/model.go, editor.go, view.go).
   [W] is runewidth.RuneWidth of github.com/mattn/go-runewidth, any function. *)
From Verif Require Import Base IdentityModel Utf8Model.
Delimit Scope string_scope with string.
Local Open Scope nat_scope.

(* tui/textbuffer/textbuffer.go:71-85 TextBuffer, line, cell *)
Record line := mkLine { lRunes : list N; lChars : list nat; lCells : list (nat * nat) }.
Definition emptyLine : line := mkLine [] [] [].
(* l.chars[len(l.chars)-1]++ *)
Definition incLast (l : list nat) : list nat := match rev l with [] => [] | x :: r => rev (S x :: r) end.
(* tui/textbuffer/textbuffer.go:87-121 parseRow: the body of the loop *)
Definition addRune (W : N -> nat) (l : line) (r : N) : res line :=
  match W r with
  | 0 =>
    let l1 := match lRunes l with
              | [] => mkLine (lRunes l ++ [32%N]) (lChars l ++ [1]) (lCells l ++ [(0, 1)])
              | _ => l
              end in
    match lChars l1 with
    | [] => Panic
    | _ => Ok (mkLine (lRunes l1 ++ [r]) (incLast (lChars l1)) (lCells l1))
    end
  | 1 => Ok (mkLine (lRunes l ++ [r]) (lChars l ++ [length (lRunes l ++ [r])]) (lCells l ++ [(length (lChars l), 1)]))
  | 2 => Ok (mkLine (lRunes l ++ [r]) (lChars l ++ [length (lRunes l ++ [r])]) (lCells l ++ [(length (lChars l), 2); (length (lChars l), 0)]))
  | _ => Panic
  end.
Fixpoint addRunes (W : N -> nat) (l : line) (rs : list N) : res line :=
  match rs with [] => Ok l | r :: rs' => do l1 <- addRune W l r; addRunes W l1 rs' end.
Definition parseRow (W : N -> nat) (row : bytes) : res line := addRunes W emptyLine (runes row).
(* tui/textbuffer/textbuffer.go:124-136 New *)
Fixpoint parseRows (W : N -> nat) (rows : list bytes) : res (list line) :=
  match rows with [] => Ok [] | r :: rs => do l <- parseRow W r; do ls <- parseRows W rs; Ok (l :: ls) end.
Definition newBuffer (W : N -> nat) (b : bytes) : res (list line) := parseRows W (splitOn 10%N b).
(* tui/textbuffer/textbuffer.go:140-147 GetRune (coordinates are not negative) *)
Definition getRune (tb : list line) (x y : nat) : N :=
  match nth_error tb y with Some l => match nth_error (lRunes l) x with Some r => r | None => runeError end | None => runeError end.
(* tui/textbuffer/textbuffer.go:151-163 GetChar *)
Definition slice {A} (lo hi : nat) (l : list A) : list A := skipn lo (firstn hi l).
Definition lineChar (l : line) (x : nat) : list N :=
  match nth_error (lChars l) x with
  | Some h => slice (match x with 0 => 0 | S x' => nth x' (lChars l) 0 end) h (lRunes l)
  | None => []
  end.
Definition getChar (tb : list line) (x y : nat) : list N := match nth_error tb y with Some l => lineChar l x | None => [] end.
(* tui/textbuffer/textbuffer.go:168-176 GetCell *)
Definition lineCell (l : line) (x : nat) : list N * nat := match nth_error (lCells l) x with Some (i, w) => (lineChar l i, w) | None => ([], 0) end.
Definition getCell (tb : list line) (x y : nat) : list N * nat := match nth_error tb y with Some l => lineCell l x | None => ([], 0) end.
(* tui/textbuffer/textbuffer.go:191-233 Lines, LineLenRune, LineLenChar, LineLenCell, MaxLineLenCell *)
Definition lineLenRune (tb : list line) (y : nat) : nat := match nth_error tb y with Some l => length (lRunes l) | None => 0 end.
Definition lineLenChar (tb : list line) (y : nat) : nat := match nth_error tb y with Some l => length (lChars l) | None => 0 end.
Definition lineLenCell (tb : list line) (y : nat) : nat := match nth_error tb y with Some l => length (lCells l) | None => 0 end.
Definition maxLineLenCell (tb : list line) : nat := fold_left (fun m l => if m <? length (lCells l) then length (lCells l) else m) tb 0.
(* tui/textbuffer/textbuffer.go:236-254 Write *)
Fixpoint writeLines (first : bool) (tb : list line) : bytes :=
  match tb with [] => [] | l :: r => (if first then [] else [10%N]) ++ encodeAll (lRunes l) ++ writeLines false r end.
Definition writeBuffer (tb : list line) : bytes := writeLines true tb.

(* tui/editor/model.go:16-26 textBufferModel; coordinates are mathematical integers *)
Record editor := mkEd { eTb : list line; eWidth : Z; eHeight : Z; eX : Z; eY : Z }.
(* tui/editor/model.go:28-38 GetCell for coordinates that are not negative: rune, combining runes, width; c[0] of an empty character panics *)
Definition modelCell (tb : list line) (x y : nat) : res (N * list N * nat) :=
  if (length tb <=? y) || (lineLenCell tb y <=? x) then Ok (0%N, [], 1)
  else match getCell tb x y with
       | (_, 0) => Ok (runeError, [], 0)
       | (c :: cs, w) => Ok (c, cs, w)
       | ([], _) => Panic
       end.
(* tui/editor/view.go:30-73 Draw: the inner loop; None is a loop still running when the steps are used up *)
Fixpoint drawRow (steps : nat) (tb : list line) (y ex x : nat) : option (res (list (nat * N * list N))) :=
  match steps with
  | 0 => None
  | S k =>
    if x <? ex then
      match modelCell tb x y with
      | Ok (ch, comb, wid) =>
        match drawRow k tb y ex (x + wid) with
        | Some (Ok l) => Some (Ok ((x, if (ch =? 0)%N then 32%N else ch, comb) :: l))
        | other => other
        end
      | Err e => Some (Err e)
      | Panic => Some Panic
      end
    else Some (Ok [])
  end.
(* tui/editor/view.go:49-57: the loops run over the larger of content and window *)
Definition drawWidth (tb : list line) (vx : nat) : nat := Nat.max (maxLineLenCell tb) vx.
Definition drawHeight (tb : list line) (vy : nat) : nat := Nat.max (length tb) vy.

Local Open Scope Z_scope.
(* tui/editor/editor.go:55-62 Init and :24-30 SetContent *)
Definition initEd (W : N -> nat) : editor := mkEd [emptyLine] 0 0 0 0.
Definition setContent (W : N -> nat) (b : bytes) (e : editor) : res editor :=
  do tb <- newBuffer W b; Ok (mkEd tb (Z.of_nat (maxLineLenCell tb)) (Z.of_nat (length tb)) (eX e) (eY e)).
(* tui/editor/model.go:44-60 limitCursor *)
Definition limitCursor (e : editor) : editor :=
  let x := if eWidth e - 1 <? eX e then eWidth e - 1 else eX e in
  let y := if eHeight e - 1 <? eY e then eHeight e - 1 else eY e in
  mkEd (eTb e) (eWidth e) (eHeight e) (if x <? 0 then 0 else x) (if y <? 0 then 0 else y).
(* tui/editor/model.go:85-91 SetCursor and :97-103 MoveCursor *)
Definition setCursor (x y : Z) (e : editor) : editor := limitCursor (mkEd (eTb e) (eWidth e) (eHeight e) x y).
Definition moveCursor (x y : Z) (e : editor) : editor := limitCursor (mkEd (eTb e) (eWidth e) (eHeight e) (eX e + x) (eY e + y)).
(* tui/editor/view.go:75-151 the keys with the cursor enabled; [vy] is the height of the window *)
Inductive edOp := EContent (b : bytes) | ESet (x y : Z) | EMove (x y : Z) | EUp | EDown | ELeft | ERight | EPgUp (vy : Z) | EPgDn (vy : Z) | EHome | EEnd.
Definition edStep (W : N -> nat) (o : edOp) (e : editor) : res editor :=
  match o with
  | EContent b => setContent W b e
  | ESet x y => Ok (setCursor x y e)
  | EMove x y => Ok (moveCursor x y e)
  | EUp => Ok (moveCursor 0 (-1) e)
  | EDown => Ok (moveCursor 0 1 e)
  | ELeft => Ok (moveCursor (-1) 0 e)
  | ERight => Ok (moveCursor 1 0 e)
  | EPgUp vy => Ok (moveCursor 0 (- vy) e)
  | EPgDn vy => Ok (moveCursor 0 vy e)
  | EHome => Ok (setCursor 0 0 e)
  | EEnd => Ok (setCursor (eWidth e) (eHeight e) e)
  end.
Fixpoint edRun (W : N -> nat) (os : list edOp) (e : editor) : res editor := match os with [] => Ok e | o :: r => do e1 <- edStep W o e; edRun W r e1 end.
