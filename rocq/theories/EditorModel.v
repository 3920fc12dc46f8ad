(* Drawing the editor with its cursor, and the keys that move the cursor (tui/editor/view.go).
   The view port of tcell (scrolling, clipping) is not modelled: a cell is drawn if SetContent is called for it. *)
From Verif Require Import Base IdentityModel Utf8Model TextBufferModel.
Local Open Scope nat_scope.

(* what is handed to port.SetContent: place, rune, combining runes, and whether the style is reversed *)
Record drawn := mkDrawn { dX : nat; dY : nat; dCh : N; dComb : list N; dRev : bool }.
(* tui/editor/view.go:58, 66-68: the cursor, if it is enabled and not hidden *)
Definition markOf (cur : option (Z * Z)) (x y : nat) : bool :=
  match cur with Some (cx, cy) => (Z.of_nat x =? cx)%Z && (Z.of_nat y =? cy)%Z | None => false end.
(* tui/editor/view.go:60-72: a row; None is a loop still running when the steps are used up *)
Fixpoint drawRowC (steps : nat) (tb : list line) (cur : option (Z * Z)) (y ex x : nat) : option (res (list drawn)) :=
  match steps with
  | 0 => None
  | S k =>
    if x <? ex then
      match modelCell tb x y with
      | Ok (ch, comb, wid) =>
        match drawRowC k tb cur y ex (x + wid) with
        | Some (Ok l) => Some (Ok (mkDrawn x y (if (ch =? 0)%N then 32%N else ch) comb (markOf cur x y) :: l))
        | other => other
        end
      | Err e => Some (Err e)
      | Panic => Some Panic
      end
    else Some (Ok [])
  end.
(* tui/editor/view.go:59: [n] rows from row y on *)
Fixpoint drawRowsC (n : nat) (tb : list line) (cur : option (Z * Z)) (ex y : nat) : option (res (list drawn)) :=
  match n with
  | 0 => Some (Ok [])
  | S k =>
    match drawRowC (S ex) tb cur y ex 0 with
    | Some (Ok r) =>
      match drawRowsC k tb cur ex (S y) with
      | Some (Ok l) => Some (Ok (r ++ l))
      | other => other
      end
    | other => other
    end
  end.
(* tui/editor/view.go:30-73 Draw in a window of vx times vy cells; tui/editor/model.go:93-95 GetCursor *)
Definition draw (e : editor) (enabled hidden : bool) (vx vy : nat) : option (res (list drawn)) :=
  drawRowsC (drawHeight (eTb e) vy) (eTb e) (if enabled && negb hidden then Some (eX e, eY e) else None) (drawWidth (eTb e) vx) 0.

(* tui/editor/view.go:165-225 HandleEvent with the cursor enabled: what a key does; None is a key that is not handled.
   [vy] is the height of the window (lines 110-128). *)
Inductive tkey := KUp | KCtrlP | KDown | KCtrlN | KRight | KCtrlF | KLeft | KCtrlB | KPgDn | KPgUp | KEnd | KHome | KEnter | KRune (r : N) | KOther.
Definition keyOp (vy : Z) (k : tkey) : option edOp :=
  match k with
  | KUp | KCtrlP => Some EUp
  | KDown | KCtrlN => Some EDown
  | KRight | KCtrlF => Some ERight
  | KLeft | KCtrlB => Some ELeft
  | KPgDn => Some (EPgDn vy)
  | KPgUp => Some (EPgUp vy)
  | KEnd => Some EEnd
  | KHome => Some EHome
  | KEnter => None
  | KRune r =>
    if (r =? 103)%N then Some EHome          (* g *)
    else if (r =? 107)%N then Some EUp       (* k *)
    else if (r =? 106)%N then Some EDown     (* j *)
    else if (r =? 108)%N then Some ERight    (* l *)
    else if (r =? 104)%N then Some ELeft     (* h *)
    else if (r =? 32)%N then Some (EPgDn vy) (* space *)
    else None
  | KOther => None
  end.
Fixpoint pressKeys (W : N -> nat) (vy : Z) (ks : list tkey) (e : editor) : res editor :=
  match ks with
  | [] => Ok e
  | k :: r => match keyOp vy k with Some o => do e1 <- edStep W o e; pressKeys W vy r e1 | None => pressKeys W vy r e end
  end.
