(* Model of encode/base64/base64.go (Go's encoding/base64 StdEncoding),
   encoding/hex as used by the project, and encode/convert.go. *)
From Verif Require Import Base.
Local Open Scope N_scope.

(* encoding/base64 StdEncoding alphabet: A-Z a-z 0-9 + / (used by
   encode/base64/base64.go:14). *)
Definition b64char (n : N) : N :=
  if n <? 26 then 65 + n
  else if n <? 52 then 97 + (n - 26)
  else if n <? 62 then 48 + (n - 52)
  else if n =? 62 then 43 else 47.

Definition b64val (c : N) : option N :=
  if (65 <=? c) && (c <=? 90) then Some (c - 65)
  else if (97 <=? c) && (c <=? 122) then Some (c - 97 + 26)
  else if (48 <=? c) && (c <=? 57) then Some (c - 48 + 52)
  else if c =? 43 then Some 62
  else if c =? 47 then Some 63
  else None.

Definition padchar : N := 61. (* '=' *)

(* encode/base64/base64.go:21-24 Encode. *)
Fixpoint b64enc (b : bytes) : bytes :=
  match b with
  | [] => []
  | [x] => [b64char (x / 4); b64char ((x mod 4) * 16); padchar; padchar]
  | [x; y] => [b64char (x / 4); b64char ((x mod 4) * 16 + y / 16);
               b64char ((y mod 16) * 4); padchar]
  | x :: y :: z :: b' =>
      b64char (x / 4) :: b64char ((x mod 4) * 16 + y / 16)
      :: b64char ((y mod 16) * 4 + z / 64) :: b64char (z mod 64) :: b64enc b'
  end.

(* Decoding of a string without line breaks: quantum by quantum, non-strict
   about trailing bits (StdEncoding is not .Strict()). *)
Fixpoint b64dec_clean (s : bytes) : option bytes :=
  match s with
  | [] => Some []
  | c0 :: c1 :: c2 :: c3 :: s' =>
      match b64val c0, b64val c1 with
      | Some v0, Some v1 =>
          if c2 =? padchar then
            (if (c3 =? padchar) && (match s' with [] => true | _ => false end)
             then Some [v0 * 4 + v1 / 16] else None)
          else
            match b64val c2 with
            | None => None
            | Some v2 =>
                if c3 =? padchar then
                  (match s' with
                   | [] => Some [v0 * 4 + v1 / 16; (v1 mod 16) * 16 + v2 / 4]
                   | _ => None end)
                else
                  match b64val c3 with
                  | None => None
                  | Some v3 =>
                      match b64dec_clean s' with
                      | None => None
                      | Some t => Some (v0 * 4 + v1 / 16 :: (v1 mod 16) * 16 + v2 / 4
                                        :: (v2 mod 4) * 64 + v3 :: t)
                      end
                  end
            end
      | _, _ => None
      end
  | _ => None
  end.

(* encode/base64/base64.go:16-19 Decode; Go's decoder skips '\r' and '\n'
   wherever they occur (encoding/base64 decodeQuantum). *)
Definition is_nl (c : N) : bool := (c =? 10) || (c =? 13).
Definition strip_nl (s : bytes) : bytes := filter (fun c => negb (is_nl c)) s.
Definition b64dec (s : bytes) : option bytes := b64dec_clean (strip_nl s).

(* encoding/hex EncodeToString / DecodeString. *)
Definition hexchar (n : N) : N := if n <? 10 then 48 + n else 97 + (n - 10).
Definition hexval (c : N) : option N :=
  if (48 <=? c) && (c <=? 57) then Some (c - 48)
  else if (97 <=? c) && (c <=? 102) then Some (c - 97 + 10)
  else if (65 <=? c) && (c <=? 70) then Some (c - 65 + 10)
  else None.
Fixpoint hexenc (b : bytes) : bytes :=
  match b with [] => [] | x :: b' => hexchar (x / 16) :: hexchar (x mod 16) :: hexenc b' end.
Fixpoint hexdec (s : bytes) : option bytes :=
  match s with
  | [] => Some []
  | a :: b :: s' =>
      match hexval a, hexval b, hexdec s' with
      | Some x, Some y, Some t => Some (x * 16 + y :: t)
      | _, _, _ => None
      end
  | [_] => None
  end.

(* encode/convert.go:36-47 ToByte8, 50-55 ToByte2, 58-62 ToByte1 (byte(u>>8k) is
   the k-th base-256 digit). *)
Definition toByte8 (u : N) : bytes :=
  [u mod 256; (u / 2^8) mod 256; (u / 2^16) mod 256; (u / 2^24) mod 256;
   (u / 2^32) mod 256; (u / 2^40) mod 256; (u / 2^48) mod 256; (u / 2^56) mod 256].
Definition toByte2 (u : N) : bytes := [u mod 256; (u / 2^8) mod 256].
Definition toByte1 (u : N) : bytes := [u mod 256].

(* encode/convert.go:9-22 ToUint64, 26-33 ToUint16; the shifted bytes are
   disjoint, so the bitwise or is a sum; panics on a wrong length. *)
Definition toUint64 (b : bytes) : res N :=
  match b with
  | [b0; b1; b2; b3; b4; b5; b6; b7] =>
      Ok (b7 * 2^56 + b6 * 2^48 + b5 * 2^40 + b4 * 2^32 + b3 * 2^24 + b2 * 2^16 + b1 * 2^8 + b0)
  | _ => Panic
  end.
Definition toUint16 (b : bytes) : res N :=
  match b with [b0; b1] => Ok (b1 * 2^8 + b0) | _ => Panic end.
