(* Models of util/digits, msg/padding, mix/client/io.go (mail transport) and the
   chunking arithmetic of msg/mime/mime.go. *)
From Verif Require Import Base Base64Model.
Local Open Scope N_scope.

(* util/digits/digits.go:9-52 Count: the switch, threshold by threshold. *)
Definition digitsCount (u : N) : N :=
  if u <? 10 then 1
  else if u <? 100 then 2
  else if u <? 1000 then 3
  else if u <? 10000 then 4
  else if u <? 100000 then 5
  else if u <? 1000000 then 6
  else if u <? 10000000 then 7
  else if u <? 100000000 then 8
  else if u <? 1000000000 then 9
  else if u <? 10000000000 then 10
  else if u <? 100000000000 then 11
  else if u <? 1000000000000 then 12
  else if u <? 10000000000000 then 13
  else if u <? 100000000000000 then 14
  else if u <? 1000000000000000 then 15
  else if u <? 10000000000000000 then 16
  else if u <? 100000000000000000 then 17
  else if u <? 1000000000000000000 then 18
  else if u <? 10000000000000000000 then 19
  else 20.

(* Decimal representation as Go prints it (strconv.FormatUint base 10):
   least significant digit first, then reversed; fuel is the bit size. *)
Fixpoint dec_rev (fuel : nat) (u : N) : bytes :=
  match fuel with
  | O => []
  | S f => if u <? 10 then [48 + u] else (48 + u mod 10) :: dec_rev f (u / 10)
  end.
Definition decimal (u : N) : bytes := rev (dec_rev (S (N.to_nat (N.log2 u))) u).

(* strconv.ParseUint(s, 10, 64), digits only. *)
Definition dec_step (acc : option N) (c : N) : option N :=
  match acc with
  | None => None
  | Some a => if (48 <=? c) && (c <=? 57)
              then (if 10 * a + (c - 48) <? 2 ^ 64 then Some (10 * a + (c - 48)) else None)
              else None
  end.
Definition parse_dec (s : bytes) : option N :=
  match s with [] => None | _ => fold_left dec_step s (Some 0) end.

(* msg/padding/padding.go:18-35 Generate.  [rand] is what the random reader
   yields, [ctr key n] the first n bytes of the AES-256-CTR key stream with an
   all-zero IV.  Lengths are Go ints; a negative length panics in make. *)
Definition paddingGenerate (ctr : bytes -> N -> bytes) (length : Z) (rand : bytes) : res bytes :=
  if (length <=? 32)%Z then
    if (length <? 0)%Z then Panic
    else match read_full (Z.to_N length) rand with
         | None => Err "EOF"
         | Some (p, _) => Ok p
         end
  else
    match read_full 32 rand with
    | None => Err "EOF"
    | Some (key, _) =>
        let n := Z.to_N length in
        let p := ctr key ((1 + n / 16) * 16) in
        if n <=? lenN p then Ok (takeN n p) else Panic
    end.

(* mix/client/io.go:41-55 splitMaxLine; the loop over i, [fuel] bounded by the
   length, [s] is inStr[i:]. *)
Fixpoint splitLoop (fuel : nat) (width : N) (s : bytes) : list bytes :=
  match fuel with
  | O => []
  | S f =>
      if lenN s =? 0 then []
      else if lenN s <=? width then [s]
      else takeN width s :: splitLoop f width (dropN width s)
  end.
Definition CRLF : bytes := [13; 10].
Fixpoint join (sep : bytes) (l : list bytes) : bytes :=
  match l with [] => [] | [x] => x | x :: l' => x ++ sep ++ join sep l' end.
Definition splitMaxLine (s : bytes) (width : N) : bytes :=
  if lenN s <=? width then s else join CRLF (splitLoop (List.length s) width s).

(* net/textproto Reader.readLineSlice: the bytes up to the first '\n', without
   it and without one '\r' before it; at the end of input without '\n' the rest
   is an (unterminated) line. *)
Fixpoint cut_nl (s : bytes) : bytes * option bytes :=
  match s with
  | [] => ([], None)
  | c :: s' => if c =? 10 then ([], Some s')
               else let (l, r) := cut_nl s' in (c :: l, r)
  end.
Definition chop_cr (l : bytes) : bytes :=
  match rev l with 13 :: r => rev r | _ => l end.
Definition is_wsp (c : N) : bool := (c =? 32) || (c =? 9).
Fixpoint trim_left (l : bytes) : bytes :=
  match l with [] => [] | c :: l' => if is_wsp c then trim_left l' else l end.
Definition trim (l : bytes) : bytes := rev (trim_left (rev (trim_left l))).

(* net/textproto ReadMIMEHeader, as used by net/mail.ReadMessage: header lines
   up to the first empty line; a line without ':' is an error, end of input is
   an error.  Simplified: a line starting with white space (a continuation
   line) is rejected instead of being folded into the previous line, and keys
   are kept as written instead of being canonicalized. *)
Fixpoint index_byte (c : N) (s : bytes) : option N :=
  match s with
  | [] => None
  | x :: s' => if x =? c then Some 0
               else match index_byte c s' with Some i => Some (i + 1) | None => None end
  end.
Fixpoint read_header (fuel : nat) (s : bytes) : option (list (bytes * bytes) * bytes) :=
  match fuel with
  | O => None
  | S f =>
      match cut_nl s with
      | (_, None) => None
      | (l0, Some rest) =>
          let l := chop_cr l0 in
          match l with
          | [] => Some ([], rest)
          | c :: _ =>
              if is_wsp c then None else
              match index_byte 58 (trim l) with
              | None => None
              | Some i =>
                  let key := rev (trim_left (rev (takeN i (trim l)))) in
                  let value := trim_left (dropN (i + 1) (trim l)) in
                  match read_header f rest with
                  | None => None
                  | Some (h, body) => Some ((key, value) :: h, body)
                  end
              end
          end
      end
  end.

(* mix/client/init.go:17 *)
Definition MaxMessageSize : N := 266240.

(* mix/client/io.go:32-39 WriteMail; [date] is the formatted current time. *)
Definition writeMailHeader (sender receiver date : bytes) : list bytes :=
  [str "From: " ++ sender; str "To: " ++ receiver;
   str "Subject: Mix message"; str "Content-Type: text/text";
   str "MIME-Version: 1.0"; str "Content-Type: text/base64; charset=UTF-8";
   str "Content-Transfer-Encoding: 8bit"; str "Date: " ++ date].
Definition writeMail (sender receiver date body : bytes) : bytes :=
  concat (map (fun l => l ++ CRLF) (writeMailHeader sender receiver date)) ++ CRLF
  ++ splitMaxLine (b64enc body) 72.

(* mix/client/io.go:18-29 ReadMail. *)
Definition readMail (message : bytes) : res bytes :=
  match read_header (S (List.length message)) message with
  | None => Err "malformed mail"
  | Some (_, body) =>
      if MaxMessageSize <? N.min (lenN body) (MaxMessageSize + 1) then Err "ErrMaxSize"
      else match b64dec (takeN (MaxMessageSize + 1) body) with
           | None => Err "illegal base64 data"
           | Some b => Ok b
           end
  end.

(* msg/mime/mime.go:162-205 EncodeChunks.  Each chunk is represented by the
   values put into its Content-Type line (183-184) and its payload
   msg[i*size:end] (191-195); the MIME envelope around them is in MimeModel.
   uint64 arithmetic wraps; slicing out of range panics; size 0 divides by
   zero. *)
Definition w64 (x : N) : N := x mod 2 ^ 64.
Record chunk := { piece : N; count : N; chunkid : bytes; part : bytes }.
Definition slice (s : bytes) (a b : N) : res bytes :=
  if (a <=? b) && (b <=? lenN s) then Ok (takeN (b - a) (dropN a s)) else Panic.
Fixpoint encChunkLoop (n : nat) (i numOfChunks size : N) (mid msg : bytes) : res (list chunk) :=
  match n with
  | O => Ok []
  | S n' =>
      let e := w64 (w64 (i + 1) * size) in
      let e := if lenN msg <? e then lenN msg else e in
      do p <- slice msg (w64 (i * size)) e;
      do rest <- encChunkLoop n' (i + 1) numOfChunks size mid msg;
      Ok ({| piece := w64 (i + 1); count := numOfChunks; chunkid := mid; part := p |} :: rest)
  end.
Definition encodeChunks (mid msg : bytes) (size : N) : res (list chunk) :=
  if size =? 0 then Panic
  else
    let n := lenN msg / size in
    let n := if 0 <? lenN msg mod size then n + 1 else n in
    encChunkLoop (N.to_nat n) 0 n size mid msg.
