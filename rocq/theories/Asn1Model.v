(* DER encoding of flat structures, as Go's encoding/asn1 does it for the structures of
   mix/mixcrypt and mix/nymaddr and mix/client: a SEQUENCE of INTEGER, BOOLEAN, OCTET STRING
   and string fields.  The library itself is not part of /repo; this file models its documented
   behaviour (Go 1.x, encoding/asn1 marshal.go and asn1.go).  Simplified: a string field is
   decoded from PrintableString and UTF8String only, the two forms Marshal produces. *)
From Verif Require Import Base.
Local Open Scope N_scope.

Inductive dv := DInt (z : Z) | DBool (b : bool) | DOct (b : bytes) | DStr (s : bytes).
Inductive dt := TInt32 | TInt64 | TBool | TOct | TStr.

(* appendLength, lengthLength *)
Fixpoint nbytesF (f : nat) (n : N) : nat :=
  match f with O => 1%nat | S f' => if 255 <? n then S (nbytesF f' (n / 256)) else 1%nat end.
Definition derLen (n : N) : bytes :=
  if n <? 128 then [n] else let k := nbytesF 7 n in (128 + N.of_nat k) :: be k n.
Definition tlv (tag : N) (body : bytes) : bytes := tag :: derLen (lenN body) ++ body.
(* int64Encoder *)
Fixpoint intLenF (f : nat) (z : Z) : nat :=
  match f with O => 1%nat | S f' => if ((127 <? z) || (z <? -128))%Z then S (intLenF f' (z / 256)%Z) else 1%nat end.
Definition intBytes (z : Z) : bytes := let k := intLenF 7 z in be k (Z.to_N (z mod 256 ^ Z.of_nat k)).
(* isPrintable(b, rejectAsterisk, rejectAmpersand) *)
Definition isPrintable (c : N) : bool :=
  ((97 <=? c) && (c <=? 122)) || ((65 <=? c) && (c <=? 90)) || ((48 <=? c) && (c <=? 57)) || ((39 <=? c) && (c <=? 41)) ||
  ((43 <=? c) && (c <=? 47)) || (c =? 32) || (c =? 58) || (c =? 61) || (c =? 63).
(* utf8.ValidString *)
Fixpoint utf8F (f : nat) (s : bytes) : bool :=
  match f with O => true | S f' =>
    let cont (c : N) := (128 <=? c) && (c <=? 191) in
    match s with
    | [] => true
    | a :: r =>
      if a <? 128 then utf8F f' r
      else match r with
      | [] => false
      | b :: r =>
        if (194 <=? a) && (a <=? 223) then cont b && utf8F f' r
        else match r with
        | [] => false
        | c :: r =>
          if (224 <=? a) && (a <=? 239) then
            cont b && cont c && negb ((a =? 224) && (b <? 160)) && negb ((a =? 237) && (159 <? b)) && utf8F f' r
          else match r with
          | [] => false
          | d :: r =>
            (240 <=? a) && (a <=? 244) && cont b && cont c && cont d && negb ((a =? 240) && (b <? 144)) && negb ((a =? 244) && (143 <? b)) && utf8F f' r
          end
        end
      end
    end
  end.
Definition utf8ok (s : bytes) : bool := utf8F (S (List.length s)) s.
Definition encField (v : dv) : option bytes :=
  match v with
  | DInt z => Some (tlv 2 (intBytes z))
  | DBool b => Some (tlv 1 [if b then 255 else 0])
  | DOct b => Some (tlv 4 b)
  | DStr s => if forallb isPrintable s then Some (tlv 19 s) else if utf8ok s then Some (tlv 12 s) else None
  end.
Fixpoint encFields (l : list dv) : option bytes :=
  match l with
  | [] => Some []
  | v :: l' => match encField v, encFields l' with Some a, Some b => Some (a ++ b) | _, _ => None end
  end.
(* asn1.Marshal of a struct; None is an error (string not valid UTF-8) *)
Definition derMarshal (l : list dv) : option bytes := match encFields l with Some b => Some (tlv 48 b) | None => None end.

(* parseTagAndLength: the length part *)
Fixpoint lenLoop (k : nat) (acc : N) (s : bytes) : res (N * bytes) :=
  match k with
  | O => Ok (acc, s)
  | S k' =>
    match s with
    | [] => Err "asn1: syntax error: truncated tag or length"
    | b :: r =>
      if 2 ^ 23 <=? acc then Err "asn1: structure error: length too large"
      else let acc' := acc * 256 + b in
           if acc' =? 0 then Err "asn1: structure error: superfluous leading zeros in length" else lenLoop k' acc' r
    end
  end.
Definition parseLen (s : bytes) : res (N * bytes) :=
  match s with
  | [] => Err "asn1: syntax error: truncated tag or length"
  | b :: r =>
    if b <? 128 then Ok (b, r)
    else if b =? 128 then Err "asn1: syntax error: indefinite length found (not DER)"
    else do (n, r') <- lenLoop (N.to_nat (b - 128)) 0 r;
         if n <? 128 then Err "asn1: structure error: non-minimal length" else Ok (n, r')
  end.
(* parseField: identifier octet among [tags], length, body; also returns the tag *)
Definition parseTLV (tags : list N) (s : bytes) : res (N * bytes * bytes) :=
  match s with
  | [] => Err "asn1: syntax error: sequence truncated"
  | t :: r =>
    if existsb (N.eqb t) tags then
      do (n, r') <- parseLen r;
      if lenN r' <? n then Err "asn1: syntax error: data truncated" else Ok (t, takeN n r', dropN n r')
    else Err "asn1: structure error: tags don't match"
  end.
(* checkInteger, parseInt64, parseInt32 *)
Definition parseInt64 (b : bytes) : res Z :=
  match b with
  | [] => Err "asn1: structure error: empty integer"
  | x :: r =>
    if match r with y :: _ => ((x =? 0) && (y <? 128)) || ((x =? 255) && (128 <=? y)) | [] => false end
    then Err "asn1: structure error: integer not minimally-encoded"
    else if 8 <? lenN b then Err "asn1: structure error: integer too large"
    else Ok (if 128 <=? x then (Z.of_N (be_dec b) - 256 ^ Z.of_N (lenN b))%Z else Z.of_N (be_dec b))
  end.
Definition decField (t : dt) (s : bytes) : res (dv * bytes) :=
  match t with
  | TInt32 => do (_, b, r) <- parseTLV [2] s; do z <- parseInt64 b;
              if (z <? -2147483648)%Z || (2147483647 <? z)%Z then Err "asn1: structure error: integer too large" else Ok (DInt z, r)
  | TInt64 => do (_, b, r) <- parseTLV [2] s; do z <- parseInt64 b; Ok (DInt z, r)
  | TBool => do (_, b, r) <- parseTLV [1] s;
             match b with
             | [x] => if x =? 0 then Ok (DBool false, r) else if x =? 255 then Ok (DBool true, r) else Err "asn1: syntax error: invalid boolean"
             | _ => Err "asn1: syntax error: invalid boolean"
             end
  | TOct => do (_, b, r) <- parseTLV [4] s; Ok (DOct b, r)
  | TStr => do (tag, b, r) <- parseTLV [19; 12] s;
            if tag =? 19 then (if forallb (fun c => isPrintable c || (c =? 42) || (c =? 38)) b then Ok (DStr b, r) else Err "asn1: syntax error: PrintableString contains invalid character")
            else if utf8ok b then Ok (DStr b, r) else Err "asn1: invalid UTF-8 string"
  end.
(* bytes after the last field inside a SEQUENCE are ignored *)
Fixpoint decFields (ts : list dt) (s : bytes) : res (list dv) :=
  match ts with
  | [] => Ok []
  | t :: ts' => do (v, r) <- decField t s; do l <- decFields ts' r; Ok (v :: l)
  end.
(* asn1.Unmarshal into a struct; the callers ignore the rest *)
Definition derUnmarshal (ts : list dt) (s : bytes) : res (list dv) :=
  do (_, b, _) <- parseTLV [48] s; decFields ts b.
