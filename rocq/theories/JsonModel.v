(* The part of encoding/json that the program relies on: json.Marshal (compact
   output, HTML-safe escaping) and json.Unmarshal.
   Simplifications: bytes >= 128 are passed through unchanged in both directions
   (Go replaces invalid UTF-8 and escapes U+2028/U+2029), object keys are matched
   up to ASCII letter case, and a number is kept as its literal text. *)
From Verif Require Import Base Base64Model CodecModel.
Local Open Scope N_scope.

Inductive json :=
| JNull
| JBool (b : bool)
| JNum (lex : bytes)
| JStr (s : bytes)
| JArr (l : list json)
| JObj (l : list (bytes * json)).

(* encoding/json encodeState.string with escapeHTML *)
Definition jesc (c : N) : bytes :=
  if c =? 34 then [92; 34]
  else if c =? 92 then [92; 92]
  else if c =? 10 then [92; 110]
  else if c =? 13 then [92; 114]
  else if c =? 9 then [92; 116]
  else if (c <? 32) || (c =? 60) || (c =? 62) || (c =? 38)
  then [92; 117; 48; 48; hexchar (c / 16); hexchar (c mod 16)]
  else [c].
Definition jstr (s : bytes) : bytes := [34] ++ flat_map jesc s ++ [34].

Fixpoint jprint (v : json) : bytes :=
  match v with
  | JNull => str "null"
  | JBool true => str "true"
  | JBool false => str "false"
  | JNum l => l
  | JStr s => jstr s
  | JArr l =>
    [91] ++ (fix go (l : list json) : bytes :=
               match l with
               | [] => []
               | [x] => jprint x
               | x :: l' => jprint x ++ [44] ++ go l'
               end) l ++ [93]
  | JObj l =>
    [123] ++ (fix go (l : list (bytes * json)) : bytes :=
                match l with
                | [] => []
                | [(k, x)] => jstr k ++ [58] ++ jprint x
                | (k, x) :: l' => jstr k ++ [58] ++ jprint x ++ [44] ++ go l'
                end) l ++ [125]
  end.

Definition is_ws (c : N) : bool := (c =? 32) || (c =? 9) || (c =? 10) || (c =? 13).
Fixpoint skip_ws (s : bytes) : bytes :=
  match s with c :: r => if is_ws c then skip_ws r else s | [] => [] end.

(* UTF-8 encoding of a code point below 2^16 (lone surrogates become U+FFFD) *)
Definition utf8_16 (c : N) : bytes :=
  let c := if (0xD800 <=? c) && (c <? 0xE000) then 0xFFFD else c in
  if c <? 0x80 then [c]
  else if c <? 0x800 then [0xC0 + c / 64; 0x80 + c mod 64]
  else [0xE0 + c / 4096; 0x80 + (c / 64) mod 64; 0x80 + c mod 64].
Definition utf8_pair (hi lo : N) : bytes :=
  let c := 0x10000 + (hi - 0xD800) * 1024 + (lo - 0xDC00) in
  [0xF0 + c / 262144; 0x80 + (c / 4096) mod 64; 0x80 + (c / 64) mod 64; 0x80 + c mod 64].
Definition hex_any (c : N) : option N :=
  match hexval c with
  | Some v => Some v
  | None => if (65 <=? c) && (c <=? 70) then Some (c - 55) else None
  end.
Definition hex4 (a b c d : N) : option N :=
  match hex_any a, hex_any b, hex_any c, hex_any d with
  | Some a, Some b, Some c, Some d => Some (a * 4096 + b * 256 + c * 16 + d)
  | _, _, _, _ => None
  end.

(* consume one given character / a literal word *)
Definition eat (c : N) (s : bytes) : option bytes :=
  match s with x :: r => if x =? c then Some r else None | [] => None end.
Fixpoint eats (w s : bytes) : option bytes :=
  match w with
  | [] => Some s
  | c :: w' => match eat c s with Some r => eats w' r | None => None end
  end.

(* the characters of a string literal after the opening quote *)
Fixpoint pchars (f : nat) (s : bytes) : option (bytes * bytes) :=
  match f with
  | O => None
  | S f =>
    match s with
    | [] => None
    | c :: r =>
      let keep (o : bytes) (r : bytes) :=
        match pchars f r with Some (x, t) => Some (o ++ x, t) | None => None end in
      if c =? 34 then Some ([], r)
      else if c =? 92 then
        match r with
        | [] => None
        | e :: r1 =>
          if (e =? 34) || (e =? 92) || (e =? 47) then keep [e] r1
          else if e =? 98 then keep [8] r1
          else if e =? 102 then keep [12] r1
          else if e =? 110 then keep [10] r1
          else if e =? 114 then keep [13] r1
          else if e =? 116 then keep [9] r1
          else if e =? 117 then
            match r1 with
            | a :: b :: c2 :: d :: r2 =>
              match hex4 a b c2 d with
              | Some v =>
                match eats [92; 117] r2 with
                | Some (a' :: b' :: c' :: d' :: r3) =>
                  match hex4 a' b' c' d' with
                  | Some w =>
                    if (0xD800 <=? v) && (v <? 0xDC00) && (0xDC00 <=? w) && (w <? 0xE000)
                    then keep (utf8_pair v w) r3
                    else keep (utf8_16 v) r2
                  | None => keep (utf8_16 v) r2
                  end
                | _ => keep (utf8_16 v) r2
                end
              | None => None
              end
            | _ => None
            end
          else None
        end
      else if c <? 32 then None
      else keep [c] r
    end
  end.
Definition pstr (s : bytes) : option (bytes * bytes) := pchars (S (List.length s)) s.

Definition is_digit (c : N) : bool := (48 <=? c) && (c <=? 57).
Definition numchar (c : N) : bool :=
  is_digit c || (c =? 45) || (c =? 43) || (c =? 46) || (c =? 101) || (c =? 69).
Fixpoint span_num (s : bytes) : bytes * bytes :=
  match s with
  | c :: r => if numchar c then let (a, b) := span_num r in (c :: a, b) else ([], s)
  | [] => ([], [])
  end.
(* JSON number syntax: -?(0|[1-9][0-9]* )(\.[0-9]+)?([eE][+-]?[0-9]+)? *)
Fixpoint drop_digits (s : bytes) : bytes :=
  match s with c :: r => if is_digit c then drop_digits r else s | [] => [] end.
Definition starts_digit (s : bytes) : bool := match s with c :: _ => is_digit c | [] => false end.
Definition num_ok (s : bytes) : bool :=
  let s := match eat 45 s with Some r => r | None => s end in
  starts_digit s &&
  (let s := match eat 48 s with Some r => r | None => drop_digits s end in
   let exp s :=
     match s with
     | [] => true
     | c :: r =>
       ((c =? 101) || (c =? 69)) &&
       (let r := match r with d :: r' => if (d =? 43) || (d =? 45) then r' else r | [] => [] end in
        starts_digit r && match drop_digits r with [] => true | _ => false end)
     end in
   match eat 46 s with
   | Some r => starts_digit r && exp (drop_digits r)
   | None => exp s
   end).

(* scanner and decoder of json.Unmarshal into an untyped tree *)
Fixpoint pval (f : nat) (s : bytes) {struct f} : option (json * bytes) :=
  match f with
  | O => None
  | S f =>
    match skip_ws s with
    | [] => None
    | c :: r =>
      if c =? 34 then match pstr r with Some (x, t) => Some (JStr x, t) | None => None end
      else if c =? 91 then
        match eat 93 (skip_ws r) with
        | Some t => Some (JArr [], t)
        | None => match pelems f r with Some (l, t) => Some (JArr l, t) | None => None end
        end
      else if c =? 123 then
        match eat 125 (skip_ws r) with
        | Some t => Some (JObj [], t)
        | None => match pmembers f r with Some (l, t) => Some (JObj l, t) | None => None end
        end
      else if c =? 110 then match eats (str "ull") r with Some t => Some (JNull, t) | None => None end
      else if c =? 116 then match eats (str "rue") r with Some t => Some (JBool true, t) | None => None end
      else if c =? 102 then match eats (str "alse") r with Some t => Some (JBool false, t) | None => None end
      else let (n, t) := span_num (c :: r) in if num_ok n then Some (JNum n, t) else None
    end
  end
with pelems (f : nat) (s : bytes) {struct f} : option (list json * bytes) :=
  match f with
  | O => None
  | S f =>
    match pval f s with
    | None => None
    | Some (v, t) =>
      match eat 44 (skip_ws t) with
      | Some t' => match pelems f t' with Some (l, u) => Some (v :: l, u) | None => None end
      | None => match eat 93 (skip_ws t) with Some t' => Some ([v], t') | None => None end
      end
    end
  end
with pmembers (f : nat) (s : bytes) {struct f} : option (list (bytes * json) * bytes) :=
  match f with
  | O => None
  | S f =>
    match eat 34 (skip_ws s) with
    | None => None
    | Some r =>
      match pstr r with
      | None => None
      | Some (k, t) =>
        match eat 58 (skip_ws t) with
        | None => None
        | Some t1 =>
          match pval f t1 with
          | None => None
          | Some (v, t2) =>
            match eat 44 (skip_ws t2) with
            | Some t3 => match pmembers f t3 with Some (l, u) => Some ((k, v) :: l, u) | None => None end
            | None => match eat 125 (skip_ws t2) with Some t3 => Some ([(k, v)], t3) | None => None end
            end
          end
        end
      end
    end
  end.
(* json.Unmarshal: one value, nothing but white space after it *)
Definition jparse (s : bytes) : option json :=
  match pval (S (2 * List.length s)) s with
  | Some (v, t) => match skip_ws t with [] => Some v | _ => None end
  | None => None
  end.

(* struct decoding: the last member whose key matches the field name up to case *)
Definition fold_ascii (s : bytes) : bytes := map (fun c => if (65 <=? c) && (c <=? 90) then c + 32 else c) s.
Definition key_match (name k : bytes) : bool := beq (fold_ascii name) (fold_ascii k).
Fixpoint jlast (name : bytes) (l : list (bytes * json)) (acc : option json) : option json :=
  match l with
  | [] => acc
  | (k, v) :: l' => jlast name l' (if key_match name k then Some v else acc)
  end.
Definition jfield (name : bytes) (l : list (bytes * json)) : option json := jlast name l None.
(* decoding of one member into a Go string / uint64 / bool field; a missing or null member leaves the zero value *)
Definition dec_str (o : option json) : option bytes :=
  match o with None | Some JNull => Some [] | Some (JStr s) => Some s | Some _ => None end.
Definition dec_uint (bits : N) (o : option json) : option N :=
  match o with
  | None | Some JNull => Some 0
  | Some (JNum l) => match parse_dec l with Some n => if n <? 2 ^ bits then Some n else None | None => None end
  | Some _ => None
  end.
Definition dec_bool (o : option json) : option bool :=
  match o with None | Some JNull => Some false | Some (JBool b) => Some b | Some _ => None end.
Definition JN (n : N) : json := JNum (decimal n).
