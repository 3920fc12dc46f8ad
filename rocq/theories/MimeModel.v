(* msg/mime/mime.go, byte by byte, with the parts of Go's standard library it relies on:
   net/textproto (ReadMIMEHeader), net/mail (ReadMessage), mime (QEncoding, WordDecoder,
   ParseMediaType), mime/multipart (Writer, Reader).
   Simplifications: readers and writers do not fail; attachments are given by their
   contents; log output is left out; white space and letter case outside ASCII are not
   interpreted; parameter names with '*' (RFC 2231 continuations) are ordinary names;
   parts with Content-Transfer-Encoding quoted-printable are not decoded; boundary lines
   may have any length; invalid UTF-8 inside a quoted parameter is kept. *)
From Verif Require Import Base Base64Model CodecModel Utf8Model.
Local Open Scope N_scope.
Delimit Scope string_scope with string.

(* Library functions of which only the stated laws are used: mime.TypeByExtension, the address
   parser of net/mail, strconv.Quote on strings with other than printable ASCII characters. *)
Definition printable (s : bytes) : bool := forallb (fun c => (32 <=? c) && (c <=? 126)) s.
(* a header value that net/textproto returns unchanged *)
Definition clean (v : bytes) : bool :=
  forallb (fun c => negb (is_nl c)) v
  && match v with [] => true | c :: _ => negb (is_wsp c) && negb (is_wsp (last v 0)) end.
(* dot-atom "@" dot-atom of RFC 5322 *)
Definition isAlnum (c : N) : bool := ((48 <=? c) && (c <=? 57)) || ((65 <=? c) && (c <=? 90)) || ((97 <=? c) && (c <=? 122)).
Definition isAtext (c : N) : bool := isAlnum c || existsb (N.eqb c) (str "!#$%&'*+-/=?^_`{|}~").
Definition atom (s : bytes) : bool := negb (beq s []) && forallb isAtext s.
Inductive dotAtom : bytes -> Prop :=
| da_one s : atom s = true -> dotAtom s
| da_more s t : atom s = true -> dotAtom t -> dotAtom (s ++ [46] ++ t).
Definition addrSpec (a : bytes) : Prop := exists l d, a = l ++ [64] ++ d /\ dotAtom l /\ dotAtom d.
Record MimeLib := {
  typeByExt : bytes -> bytes;
  parseAddrs : bytes -> res (list bytes);
  quoteAny : bytes -> bytes;
  typeByExt_clean : forall e, clean (typeByExt e) = true;
  parseAddrs_specs : forall l, l <> [] -> Forall addrSpec l -> parseAddrs (join [44] l) = Ok l;
  parseAddrs_nopanic : forall s, parseAddrs s <> Panic
}.

(* ---- net/textproto ---- *)
(* Reader.readLineSlice: None at end of input *)
Definition readLine (s : bytes) : option (bytes * bytes) :=
  match s with
  | [] => None
  | _ => match cut_nl s with (l, Some r) => Some (chop_cr l, r) | (l, None) => Some (l, []) end
  end.
(* readContinuedLineSlice after the first line *)
Fixpoint contLines (f : nat) (acc s : bytes) : bytes * bytes :=
  match f with
  | O => (acc, s)
  | S f' =>
    let s' := trim_left s in
    if lenN s' =? lenN s then (acc, s)
    else match readLine s' with
         | None => (acc, s')
         | Some (l, r) => contLines f' (acc ++ [32] ++ trim l) r
         end
  end.
(* validHeaderFieldByte, canonicalMIMEHeaderKey *)
Definition keyByte (c : N) : bool := isAlnum c || existsb (N.eqb c) (str "!#$%&'*+-.^_`|~").
Fixpoint canonF (upper : bool) (s : bytes) : bytes :=
  match s with
  | [] => []
  | c :: s' =>
    (if upper && ((97 <=? c) && (c <=? 122)) then c - 32
     else if negb upper && ((65 <=? c) && (c <=? 90)) then c + 32 else c) :: canonF (c =? 45) s'
  end.
Definition canon (k : bytes) : bytes := if forallb keyByte k then canonF true k else k.
Fixpoint trimKey (k : bytes) : bytes :=      (* on the reversed key: drop spaces before the colon *)
  match k with 32 :: k' => trimKey k' | _ => k end.
(* ReadMIMEHeader; Err "EOF" is io.EOF *)
Fixpoint readMIME (f : nat) (s : bytes) : res (list (bytes * bytes) * bytes) :=
  match f with
  | O => Err "EOF"
  | S f' =>
    match readLine s with
    | None => Err "EOF"
    | Some ([], r) => Ok ([], r)
    | Some (l, r) =>
      let '(kv, r) := contLines (List.length r) (trim l) r in
      match kv with
      | [] => Ok ([], r)
      | _ =>
        match index_byte 58 kv with
        | None => Err "malformed MIME header line"
        | Some i =>
          let key := canon (rev (trimKey (rev (takeN i kv)))) in
          do (h, body) <- readMIME f' r;
          Ok (if beq key [] then (h, body) else ((key, trim_left (dropN (i + 1) kv)) :: h, body))
        end
      end
    end
  end.
Definition readHdr (s : bytes) : res (list (bytes * bytes) * bytes) := readMIME (S (List.length s)) s.
(* MIMEHeader.Get and direct access, for canonical keys *)
Definition hvalues (k : bytes) (h : list (bytes * bytes)) : list bytes := map snd (filter (fun p => beq (fst p) k) h).
Definition hget (k : bytes) (h : list (bytes * bytes)) : bytes := hd [] (hvalues k h).

(* ---- mime: encoded words ---- *)
(* needsEncoding *)
Definition needsEncoding (s : bytes) : bool := existsb (fun c => ((c <? 32) || (126 <? c)) && negb (c =? 9)) s.
Definition qplain (c : N) : bool := (33 <=? c) && (c <=? 126) && negb (c =? 61) && negb (c =? 63) && negb (c =? 95).
Definition hexUp (n : N) : N := if n <? 10 then 48 + n else 65 + (n - 10).
(* writeQString *)
Definition qByte (c : N) : bytes :=
  if c =? 32 then [95] else if qplain c then [c] else [61; hexUp (c / 16); hexUp (c mod 16)].
Definition qString (s : bytes) : bytes := concat (map qByte s).
Definition openWord : bytes := str "=?utf-8?q?".
Definition closeWord : bytes := str "?=".
(* WordEncoder.qEncode; [mx] is maxContentLen, 63 in the library (no splitting before Go 1.6) *)
Fixpoint qLoop (f : nat) (mx cur : N) (s : bytes) : bytes :=
  match f with
  | O => []
  | S f' =>
    match s with
    | [] => []
    | b :: s' =>
      let '(rl, el) := if (b =? 32) || qplain b then (1, 1)
                       else let n := lenN s - lenN (snd (decodeRune b s')) in (n, 3 * n) in
      if mx <? cur + el
      then closeWord ++ [32] ++ openWord ++ qString (takeN rl s) ++ qLoop f' mx el (dropN rl s)
      else qString (takeN rl s) ++ qLoop f' mx (cur + el) (dropN rl s)
    end
  end.
(* WordEncoder.Encode("utf-8", s) for QEncoding *)
Definition qEncode (mx : N) (s : bytes) : bytes :=
  if needsEncoding s then openWord ++ qLoop (List.length s) mx 0 s ++ closeWord else s.

(* strings.Index for a one and a two character pattern: text before and after it *)
Fixpoint cut1 (a : N) (s : bytes) : option (bytes * bytes) :=
  match s with
  | [] => None
  | x :: s' => if x =? a then Some ([], s')
               else match cut1 a s' with Some (u, v) => Some (x :: u, v) | None => None end
  end.
Fixpoint cut2 (a b : N) (s : bytes) : option (bytes * bytes) :=
  match s with
  | x :: ((y :: s'') as s') =>
    if (x =? a) && (y =? b) then Some ([], s'')
    else match cut2 a b s' with Some (u, v) => Some (x :: u, v) | None => None end
  | _ => None
  end.
(* qDecode *)
Fixpoint qDecode (s : bytes) : option bytes :=
  match s with
  | [] => Some []
  | c :: s' =>
    if c =? 95 then option_map (cons 32) (qDecode s')
    else if c =? 61 then
      match s' with
      | x :: y :: s'' =>
        match hexval x, hexval y with
        | Some h, Some l => option_map (cons (h * 16 + l)) (qDecode s'')
        | _, _ => None
        end
      | _ => None
      end
    else if ((32 <=? c) && (c <=? 126)) || (c =? 10) || (c =? 13) || (c =? 9) then option_map (cons c) (qDecode s')
    else None
  end.
(* decode *)
Definition decodeWord (enc : N) (text : bytes) : option bytes :=
  if (enc =? 66) || (enc =? 98) then b64dec text
  else if (enc =? 81) || (enc =? 113) then qDecode text else None.
Definition lowerB (c : N) : N := if (65 <=? c) && (c <=? 90) then c + 32 else c.
(* WordDecoder.convert without CharsetReader *)
Definition convert (charset content : bytes) : res bytes :=
  let cs := map lowerB charset in
  if beq cs (str "utf-8") then Ok content
  else if beq cs (str "iso-8859-1") then Ok (encodeAll content)
  else if beq cs (str "us-ascii") then Ok (encodeAll (map (fun c => if c <? 128 then c else runeError) content))
  else Err "mime: unhandled charset".
Definition blank (s : bytes) : bool := forallb (fun c => (c =? 32) || (c =? 9) || (c =? 10) || (c =? 13)) s.
(* WordDecoder.DecodeHeader *)
Fixpoint decLoop (f : nat) (between : bool) (s : bytes) : res bytes :=
  match f with
  | O => Ok s
  | S f' =>
    match cut2 61 63 s with
    | None => Ok s
    | Some (pre, s1) =>
      match cut1 63 s1 with
      | Some (charset, ((e :: q :: s3) as s2)) =>
        if (lenN s2 <? 4) || negb (q =? 63) then Ok s
        else
          match cut2 63 61 s3 with
          | None => Ok s
          | Some (text, rest) =>
            match decodeWord e text with
            | None => do r <- decLoop f' false s1; Ok (pre ++ [61; 63] ++ r)
            | Some content =>
              do c <- convert charset content;
              do r <- decLoop f' true rest;
              Ok ((if between && blank pre then [] else pre) ++ c ++ r)
            end
          end
      | _ => Ok s
      end
    end
  end.
Definition decodeHeader (s : bytes) : res bytes := decLoop (List.length s) false s.

(* ---- mime: media types ---- *)
Definition isTok (c : N) : bool := (33 <=? c) && (c <=? 126) && negb (existsb (N.eqb c) (str "()<>@,;:\/[]?=" ++ [34])).
(* consumeToken *)
Fixpoint token (s : bytes) : bytes * bytes :=
  match s with
  | [] => ([], [])
  | c :: s' => if isTok c then let (a, b) := token s' in (c :: a, b) else ([], s)
  end.
Definition isSp (c : N) : bool := (c =? 32) || ((9 <=? c) && (c <=? 13)).
Fixpoint skipSp (s : bytes) : bytes := match s with [] => [] | c :: s' => if isSp c then skipSp s' else s end.
Definition trimSp (s : bytes) : bytes := rev (skipSp (rev (skipSp s))).
(* the quoted-string loop of consumeValue *)
Fixpoint quoted (lit : bool) (s : bytes) : option (bytes * bytes) :=
  match s with
  | [] => None
  | c :: s' =>
    let add := match quoted false s' with Some (v, r) => Some (c :: v, r) | None => None end in
    if lit then add
    else if c =? 34 then Some ([], s')
    else if c =? 92 then quoted true s'
    else if is_nl c then None else add
  end.
(* consumeValue; ("", _) means no value *)
Definition consumeValue (s : bytes) : bytes * bytes :=
  match s with
  | 34 :: s' => match quoted false s' with Some p => p | None => ([], s) end
  | _ => token s
  end.
(* consumeMediaParam; None = not parseable *)
Definition mediaParam (v : bytes) : option (bytes * bytes * bytes) :=
  match skipSp v with
  | 59 :: r =>
    let '(k, r) := token (skipSp r) in
    if beq k [] then None
    else match skipSp r with
         | 61 :: r => let '(value, r) := consumeValue (skipSp r) in
                      if beq value [] then None else Some (map lowerB k, value, r)
         | _ => None
         end
  | _ => None
  end.
Fixpoint params (f : nat) (acc : list (bytes * bytes)) (v : bytes) : res (list (bytes * bytes)) :=
  match f with
  | O => Ok acc
  | S f' =>
    match skipSp v with
    | [] => Ok acc
    | v =>
      match mediaParam v with
      | None => if beq (trimSp v) [59] then Ok acc else Err "mime: invalid media parameter"
      | Some (k, x, r) =>
        if existsb (fun p => beq (fst p) k) acc then Err "mime: duplicate parameter name"
        else params f' (acc ++ [(k, x)]) r
      end
    end
  end.
(* checkMediaTypeDisposition *)
Definition mediaTypeOk (s : bytes) : bool :=
  let '(t, r) := token s in
  negb (beq t []) &&
  match r with
  | [] => true
  | 47 :: r => let '(t, r) := token r in negb (beq t []) && beq r []
  | _ => false
  end.
(* ParseMediaType *)
Definition parseMediaType (v : bytes) : res (bytes * list (bytes * bytes)) :=
  let '(a, r) := match cut1 59 v with Some (a, r) => (a, 59 :: r) | None => (v, []) end in
  let mt := trimSp (map lowerB a) in
  if negb (mediaTypeOk mt) then Err "mime: bad media type"
  else do ps <- params (S (List.length r)) [] r; Ok (mt, ps).
Definition pget (k : bytes) (ps : list (bytes * bytes)) : bytes := hget k ps.

(* ---- mime/multipart ---- *)
Definition dashes (b : bytes) : bytes := [45; 45] ++ b.
Definition headerLine (k v : bytes) : bytes := k ++ [58; 32] ++ v ++ CRLF.
(* Writer.CreatePart: the header map is enumerated in the order [ord] of its keys *)
Definition createPart (b : bytes) (first : bool) (ord : list bytes) (h : list (bytes * bytes)) : bytes :=
  (if first then [] else CRLF) ++ dashes b ++ CRLF
  ++ concat (map (fun k => concat (map (headerLine k) (hvalues k h))) ord) ++ CRLF.
(* Writer.Close after at least one part *)
Definition closeParts (b : bytes) : bytes := CRLF ++ dashes b ++ [45; 45] ++ CRLF.

Fixpoint starts (p s : bytes) : option bytes :=
  match p, s with
  | [], _ => Some s
  | x :: p', y :: s' => if x =? y then starts p' s' else None
  | _, [] => None
  end.
(* matchAfterPrefix at the end of the input or with a following character *)
Definition afterOk (s : bytes) : bool := match s with [] => true | c :: _ => is_wsp c || is_nl c || (c =? 45) end.
Definition boundaryAt (p s : bytes) : bool := match starts p s with Some r => afterOk r | None => false end.
(* Part.Read / scanUntilBoundary for the whole part: contents, stream from the boundary on; None = unexpected EOF.
   (The code skips a whole candidate that is not followed by a delimiter; no other candidate can begin inside it.) *)
Fixpoint scan (p s : bytes) : option (bytes * bytes) :=
  if boundaryAt p s then Some ([], s)
  else match s with
       | [] => None
       | c :: s' => match scan p s' with Some (a, t) => Some (c :: a, t) | None => None end
       end.
Definition nl (lf : bool) : bytes := if lf then [10] else CRLF.
Definition readPart (lf : bool) (b s : bytes) : option (bytes * bytes) :=
  if boundaryAt (dashes b) s then Some ([], s) else scan (nl lf ++ dashes b) s.
(* Reader: stream, whether a part was read, LF mode *)
Record mreader := mkMR { mrS : bytes; mrParts : bool; mrLF : bool }.
Inductive next := NPart (h : list (bytes * bytes)) (r : mreader) | NEof | NErr.
(* isFinalBoundary *)
Definition isFinal (lf : bool) (b line : bytes) : bool :=
  match starts (dashes b ++ [45; 45]) line with
  | Some r => beq (trim_left r) [] || beq (trim_left r) (nl lf)
  | None => false
  end.
(* isBoundaryDelimiterLine: answer and LF mode afterwards *)
Definition isDelim (parts lf : bool) (b line : bytes) : bool * bool :=
  match starts (dashes b) line with
  | None => (false, lf)
  | Some r =>
    let lf := if negb parts && beq (trim_left r) [10] then true else lf in
    (beq (trim_left r) (nl lf), lf)
  end.
(* NextPart; the current part has been read to its end *)
Fixpoint nextLoop (f : nat) (b : bytes) (expect : bool) (r : mreader) : next :=
  match f with
  | O => NErr
  | S f' =>
    match cut_nl (mrS r) with
    | (line, None) => if isFinal (mrLF r) b line then NEof else NErr
    | (l, Some rest) =>
      let line := l ++ [10] in
      let '(d, lf) := isDelim (mrParts r) (mrLF r) b line in
      if d then
        match readHdr rest with
        | Ok (h, rest) => NPart h (mkMR rest true lf)
        | Err e => if String.eqb e "EOF" then NEof else NErr
        | Panic => NErr
        end
      else if isFinal lf b line then NEof
      else if expect then NErr
      else if negb (mrParts r) then nextLoop f' b expect (mkMR rest (mrParts r) lf)
      else if beq line (nl lf) then nextLoop f' b true (mkMR rest (mrParts r) lf)
      else NErr
    end
  end.
Definition nextPart (b : bytes) (r : mreader) : next := nextLoop (S (List.length (mrS r))) b false r.

(* ---- msg/mime/mime.go ---- *)
(* msg/mime/mime.go:42-48; Cc = None is a nil slice *)
Record mhdr := mkMHdr { mFrom : bytes; mTo : bytes; mCc : option (list bytes); mMid : bytes; mReply : bytes }.
(* msg/mime/mime.go:34-39, the reader given by what it yields *)
Record att := mkAtt { aName : bytes; aData : bytes; aType : bytes; aInline : bool }.

Section Mime.
Variable L : MimeLib.
Variable mx : N.

(* msg/mime/mime.go:50-72 *)
Definition mailHeader (h : mhdr) (subject boundary : bytes) : bytes :=
  headerLine (str "From") (mFrom h)
  ++ headerLine (str "To") (mTo h)
  ++ (match mCc h with None => [] | Some l => headerLine (str "Cc") (join [44] l) end)
  ++ (if beq subject [] then [] else headerLine (str "Subject") (qEncode mx subject))
  ++ headerLine (str "Message-ID") (mMid h)
  ++ (if beq (mReply h) [] then [] else headerLine (str "In-Reply-To") (mReply h))
  ++ headerLine (str "MIME-Version") (str "1.0")
  ++ headerLine (str "Content-Type") (str "multipart/mixed; boundary=" ++ boundary)
  ++ CRLF.

(* path/filepath.Base and Ext on Unix *)
Definition fpBase (p : bytes) : bytes :=
  if beq p [] then [46]
  else let fix dropSlash (s : bytes) := match s with 47 :: s' => dropSlash s' | _ => s end in
       let r := dropSlash (rev p) in
       let fix upto (s : bytes) := match s with [] => [] | c :: s' => if c =? 47 then [] else c :: upto s' end in
       if beq r [] then [47] else rev (upto r).
Definition fpExt (p : bytes) : bytes :=
  let fix go (s acc : bytes) := match s with
    | [] => []
    | c :: s' => if c =? 46 then c :: acc else if c =? 47 then [] else go s' (c :: acc) end in
  go (rev p) [].

(* msg/mime/mime.go:94-110: the header map of an attachment *)
Definition attType (a : att) : bytes :=
  if negb (beq (aType a) []) then aType a
  else let ct := typeByExt L (fpExt (fpBase (aName a))) in
       if negb (beq ct []) then ct else str "application/octet-stream".
Definition attHeader (a : att) : list (bytes * bytes) :=
  [(str "Content-Type", attType a); (str "Content-Transfer-Encoding", str "base64");
   (str "Content-Disposition", str "attachment; filename=" ++ fpBase (aName a))]
  ++ (if aInline a then [(str "Content-Disposition", str "inline")] else []).
(* msg/mime/mime.go:80-82 *)
Definition textHeader : list (bytes * bytes) :=
  [(str "Content-Type", str "text/plain"); (str "Content-Transfer-Encoding", str "base64")].
(* the keys of the two header maps *)
Definition textKeys : list bytes := [str "Content-Type"; str "Content-Transfer-Encoding"].
Definition attKeys : list bytes := [str "Content-Disposition"; str "Content-Transfer-Encoding"; str "Content-Type"].
(* msg/mime/mime.go:74-124; [ord i keys] is the order in which the i-th header map is enumerated *)
Fixpoint writeAtts (b : bytes) (ord : nat -> list bytes -> list bytes) (i : nat) (l : list att) : bytes :=
  match l with
  | [] => []
  | a :: l' => createPart b false (ord i attKeys) (attHeader a) ++ b64enc (aData a) ++ writeAtts b ord (S i) l'
  end.
Definition multipartMIME (b : bytes) (ord : nat -> list bytes -> list bytes) (msg : bytes) (l : list att) : bytes :=
  createPart b true (ord O textKeys) textHeader ++ b64enc msg ++ writeAtts b ord 1 l.

(* msg/mime/mime.go:128-136 *)
Fixpoint dropCR (s : bytes) : bytes := match s with 13 :: s' => dropCR s' | _ => s end.
Definition splitMessage (msg : bytes) : bytes * bytes :=
  match cut_nl msg with
  | (s, None) => (rev (dropCR (rev s)), [])
  | (s, Some m) => (rev (dropCR (rev s)), m)
  end.
(* mime/multipart randomBoundary: 30 random bytes in hexadecimal *)
Definition boundaryOf (rnd : bytes) : bytes := hexenc rnd.
(* msg/mime/mime.go:139-158 *)
Definition newMsg (h : mhdr) (msg : bytes) (l : list att) (rnd : bytes) (ord : nat -> list bytes -> list bytes) : bytes :=
  let b := boundaryOf rnd in
  mailHeader h (fst (splitMessage msg)) b ++ multipartMIME b ord msg l ++ closeParts b.

(* strconv.Quote *)
Definition quoteByte (c : N) : bytes := if (c =? 34) || (c =? 92) then [92; c] else [c].
Definition goQuote (s : bytes) : bytes := if printable s then [34] ++ concat (map quoteByte s) ++ [34] else quoteAny L s.
(* msg/mime/mime.go:174-202: one chunk *)
Definition chunkHeader (c : chunk) : list (bytes * bytes) :=
  [(str "Content-Type", str "chunked; piece=" ++ decimal (piece c) ++ str "; count=" ++ decimal (count c)
      ++ str "; chunkid=" ++ goQuote (chunkid c));
   (str "Content-Transfer-Encoding", str "base64")].
Definition chunkMsg (h : mhdr) (c : chunk) (rnd : bytes) (ord : list bytes -> list bytes) : bytes :=
  let b := boundaryOf rnd in
  mailHeader h [] b ++ createPart b true (ord textKeys) (chunkHeader c) ++ part c ++ closeParts b.
(* msg/mime/mime.go:162-205; [rnd i], [ord i] belong to the i-th chunk *)
Fixpoint chunkMsgs (i : nat) (h : mhdr) (rnd : nat -> bytes) (ord : nat -> list bytes -> list bytes) (l : list chunk) : list bytes :=
  match l with [] => [] | c :: l' => chunkMsg h c (rnd i) (ord i) :: chunkMsgs (S i) h rnd ord l' end.
Definition encodeChunkMsgs (h : mhdr) (msg : bytes) (size : N) (rnd : nat -> bytes) (ord : nat -> list bytes -> list bytes)
    : res (list bytes) :=
  do cs <- encodeChunks (mMid h) msg size; Ok (chunkMsgs 0 h rnd ord cs).

(* net/mail Header.AddressList on a present field, nil slice for none *)
Definition ccList (v : bytes) : res (option (list bytes)) :=
  if beq v [] then Ok None
  else do l <- parseAddrs L v; Ok (match l with [] => None | _ => Some l end).

(* msg/mime/mime.go:208-276 *)
Definition decodeChunk (s : bytes) : res (mhdr * bytes * N * N) :=
  do (h, body) <- readHdr s;
  do cc <- ccList (hget (str "Cc") h);
  let mid := hget (str "Message-Id") h in
  let hdr := mkMHdr (hget (str "From") h) (hget (str "To") h) cc mid (hget (str "In-Reply-To") h) in
  do (mt, ps) <- parseMediaType (hget (str "Content-Type") h);
  if negb (beq mt (str "multipart/mixed")) then Err "mime: unexpected mediaType"
  else
    let b := pget (str "boundary") ps in
    match nextPart b (mkMR body false false) with
    | NEof | NErr => Err "multipart"
    | NPart ph r =>
      do (_, ps) <- parseMediaType (hget (str "Content-Type") ph);
      match parse_dec (pget (str "piece") ps), parse_dec (pget (str "count") ps) with
      | Some p, Some n =>
        if negb (beq (pget (str "chunkid") ps) mid) then Err "mime: chunkID differs from messageID"
        else match readPart (mrLF r) b (mrS r) with
             | None => Err "unexpected EOF"
             | Some (text, _) => Ok (hdr, text, p, n)
             end
      | _, _ => Err "strconv.ParseUint"
      end
    end.

(* msg/mime/mime.go:378-395 *)
Fixpoint dispositions (name : bytes) (inln : bool) (l : list bytes) : res (bytes * bool) :=
  match l with
  | [] => Ok (name, inln)
  | d :: l' =>
    do (mt, ps) <- parseMediaType d;
    if beq mt (str "attachment") then dispositions (pget (str "filename") ps) inln l'
    else if beq mt (str "inline") then dispositions name true l'
    else Err "mime: unknown Content-Disposition in attachment"
  end.
(* msg/mime/mime.go:367-420; a NextPart error other than io.EOF leaves p nil, which line 373 dereferences *)
Fixpoint parseAtts (f : nat) (b : bytes) (r : mreader) : res (list att) :=
  match f with
  | O => Err "EOF"
  | S f' =>
    match nextPart b r with
    | NEof => Ok []
    | NErr => Panic
    | NPart h r =>
      let ct := hget (str "Content-Type") h in
      if beq ct [] then Err "mime: Content-Type undefined for attachment"
      else
        do (name, inln) <- dispositions [] false (hvalues (str "Content-Disposition") h);
        match readPart (mrLF r) b (mrS r) with
        | None => Err "unexpected EOF"
        | Some (enc, rest) =>
          match b64dec enc with
          | None => Err "illegal base64 data"
          | Some content =>
            do l <- parseAtts f' b (mkMR rest true (mrLF r));
            Ok (mkAtt name content ct inln :: l)
          end
        end
    end
  end.
(* msg/mime/mime.go:279-424 *)
Definition parse (s : bytes) : res (mhdr * bytes * bytes * list att) :=
  do (h, body) <- readHdr s;
  let from := hget (str "From") h in
  let to := hget (str "To") h in
  if beq from [] then Err "mime: 'From' not defined"
  else if beq to [] then Err "mime: 'To' not defined"
  else
    do cc <- ccList (hget (str "Cc") h);
    let subj := hget (str "Subject") h in
    if beq subj [] then Err "mime: 'Subject' not defined"
    else
      do subject <- decodeHeader subj;
      let mid := hget (str "Message-Id") h in
      if beq mid [] then Err "mime: 'Message-ID' not defined"
      else if negb (beq (hget (str "Mime-Version") h) (str "1.0")) then Err "mime: wrong 'MIME-Version' header"
      else
        do (mt, ps) <- parseMediaType (hget (str "Content-Type") h);
        if negb (beq mt (str "multipart/mixed")) then Err "mime: wrong 'Content-Type' header "
        else
          let b := pget (str "boundary") ps in
          match nextPart b (mkMR body false false) with
          | NEof | NErr => Err "multipart"
          | NPart ph r =>
            if negb (beq (hget (str "Content-Type") ph) (str "text/plain")) then Err "mime: expected 'text/plain' Content-Type"
            else if negb (beq (hget (str "Content-Transfer-Encoding") ph) (str "base64"))
            then Err "mime: expected 'base64' Content-Transfer-Encoding"
            else
              match readPart (mrLF r) b (mrS r) with
              | None => Err "unexpected EOF"
              | Some (enc, rest) =>
                match b64dec enc with
                | None => Err "illegal base64 data"
                | Some content =>
                  do atts <- parseAtts (S (List.length rest)) b (mkMR rest true (mrLF r));
                  Ok (mkMHdr from to cc mid (hget (str "In-Reply-To") h), subject, content, atts)
                end
              end
          end.
End Mime.
