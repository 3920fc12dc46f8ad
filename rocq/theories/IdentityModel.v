(* Model of uid/identity/identity.go and msg/msgid/msgid.go.
   Strings are lists of Unicode code points (simplification: only valid UTF-8);
   [utf8len] is Go's len. *)
From Verif Require Import Base Base64Model.
Local Open Scope N_scope.

Notation rune := N (only parsing).
Definition runelen (r : rune) : N :=
  if r <? 128 then 1 else if r <? 2048 then 2 else if r <? 65536 then 3 else 4.
Fixpoint utf8len (s : list rune) : N :=
  match s with [] => 0 | r :: s' => runelen r + utf8len s' end.

(* unicode.ToLower: fixed on ASCII, elsewhere a table of which only these facts
   are used. *)
Definition lower_ascii (c : rune) : rune := if (65 <=? c) && (c <=? 90) then c + 32 else c.
Record Unicode := {
  lower : rune -> rune;
  lower_on_ascii : forall c, c < 128 -> lower c = lower_ascii c;
  lower_idem : forall c, lower (lower c) = lower c;
  lower_at : forall c, lower c = 64 -> c = 64
}.
(* Excerpt of Go's unicode.CaseRanges: U+023A -> U+2C65, U+212A -> 'k',
   U+0130 -> 'i'; every other code point above ASCII is left alone. *)
Definition go_lower (c : rune) : rune :=
  if c =? 0x23A then 0x2C65 else if c =? 0x212A then 107 else if c =? 0x130 then 105
  else lower_ascii c.

(* unicode.IsSpace. *)
Definition isSpace (r : rune) : bool :=
  ((9 <=? r) && (r <=? 13)) || (r =? 32) || (r =? 0x85) || (r =? 0xA0) || (r =? 0x1680)
  || ((0x2000 <=? r) && (r <=? 0x200A)) || (r =? 0x2028) || (r =? 0x2029) || (r =? 0x202F)
  || (r =? 0x205F) || (r =? 0x3000).
Fixpoint trimLeftSpace (s : list rune) : list rune :=
  match s with [] => [] | r :: s' => if isSpace r then trimLeftSpace s' else s end.
Definition trimSpace (s : list rune) : list rune := rev (trimLeftSpace (rev (trimLeftSpace s))).

(* strings.Split(s, sep) for a one-character separator. *)
Fixpoint splitOn (sep : rune) (s : list rune) : list (list rune) :=
  match s with
  | [] => [[]]
  | r :: s' =>
      if r =? sep then [] :: splitOn sep s'
      else match splitOn sep s' with
           | [] => [[r]]
           | p :: ps => (r :: p) :: ps
           end
  end.

(* uid/identity/identity.go:164-170 Split *)
Definition split (identity : list rune) : res (list rune * list rune) :=
  match splitOn 64 identity with
  | [lp; domain] => Ok (lp, domain)
  | _ => Err "identity: does not contain exactly one '@'"
  end.

(* strings.Contains(s, "ab") for two-character patterns. *)
Fixpoint contains2 (a b : rune) (s : list rune) : bool :=
  match s with
  | x :: ((y :: _) as s') => ((x =? a) && (y =? b)) || contains2 a b s'
  | _ => false
  end.

Definition dash : rune := 45.
Definition dot : rune := 46.

(* uid/identity/identity.go:126-144 the mapping closure; None is its error. *)
Definition mapRune (r : rune) : option rune :=
  if r =? 48 then Some 111
  else if r =? 49 then Some 108
  else if r =? 106 then Some 105
  else if (97 <=? r) && (r <=? 122) then Some r
  else if (50 <=? r) && (r <=? 57) then Some r
  else if (r =? dash) || (r =? dot) then Some r
  else None.
Fixpoint mapRunes (s : list rune) : option (list rune) :=
  match s with
  | [] => Some []
  | r :: s' => match mapRune r, mapRunes s' with Some x, Some t => Some (x :: t) | _, _ => None end
  end.

Section Uni.
  Variable U : Unicode.

  Definition toLower (s : list rune) : list rune := map (lower U) s.

  (* uid/identity/identity.go:76-156 MapLocalpart *)
  Definition mapLocalpart (localpart : list rune) : res (list rune) :=
    let lp := toLower (trimSpace localpart) in
    if utf8len lp <? 3 then Err "identity: minimum length is 3"
    else match lp with
    | [] => Panic (* lp[0] *)
    | c0 :: _ =>
      if c0 =? dash then Err "identity: starting with '-' not allowed"
      else if c0 =? dot then Err "identity: starting with '.' not allowed"
      else if last lp 0 =? dash then Err "identity: ending with '-' not allowed"
      else if last lp 0 =? dot then Err "identity: ending with '.' not allowed"
      else if contains2 dash dash lp then Err "identity: sequence '--' not allowed"
      else if contains2 dash dot lp then Err "identity: sequence '-.' not allowed"
      else if contains2 dot dash lp then Err "identity: sequence '.-' not allowed"
      else if contains2 dot dot lp then Err "identity: sequence '..' not allowed"
      else match mapRunes lp with
           | None => Err "identity: character not allowed"
           | Some lp => if 64 <? utf8len lp then Err "identity: maximum length of localpart is 64" else Ok lp
           end
    end.

  (* uid/identity/identity.go:159-161 MapDomain *)
  Definition mapDomain (domain : list rune) : list rune := toLower domain.

  (* uid/identity/identity.go:29-42 Map; MaxLen is line 19 *)
  Definition MaxLen : N := 254.
  Definition imap (identity : list rune) : res (list rune) :=
    if MaxLen <? utf8len identity then Err "identity: maximum total length is 254"
    else
      do (lp, domain) <- split identity;
      do mlp <- mapLocalpart lp;
      Ok (mlp ++ [64] ++ mapDomain domain).

  (* uid/identity/identity.go:46-52 IsMapped (true = no error) *)
  Definition isMapped (identity : list rune) : bool :=
    match imap identity with Ok m => beq m identity | _ => false end.

  (* msg/msgid/msgid.go:20-30 Generate; [rand] is the random source, [ym] the
     formatted "year-month" of the current time. *)
  Definition msgidGenerate (sender : list rune) (rand : bytes) (year month : list rune) : res (list rune) :=
    if negb (isMapped sender) then Err "ErrNotMapped"
    else match read_full 16 rand with
         | None => Err "EOF"
         | Some (random, _) => Ok (year ++ [dash] ++ month ++ [dash] ++ hexenc random ++ [dash] ++ sender)
         end.
End Uni.

(* strings.SplitN(s, sep, n), n >= 1 *)
Fixpoint cutOn (sep : rune) (s : list rune) : option (list rune * list rune) :=
  match s with
  | [] => None
  | r :: s' => if r =? sep then Some ([], s')
               else match cutOn sep s' with Some (a, b) => Some (r :: a, b) | None => None end
  end.
Fixpoint splitN (n : nat) (sep : rune) (s : list rune) : list (list rune) :=
  match n with
  | O | S O => [s]
  | S n' => match cutOn sep s with None => [s] | Some (a, b) => a :: splitN n' sep b end
  end.

(* msg/msgid/msgid.go:34-40 Parse *)
Definition msgidParse (messageID : list rune) : list rune :=
  match splitN 4 dash messageID with
  | [_; _; _; sender] => sender
  | _ => []
  end.
