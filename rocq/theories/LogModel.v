(* Starting the log: log/log.go:32-76.  The configuration is XML text, read by seelog with encoding/xml. *)
From Verif Require Import Base IdentityModel GenerateModel.
Local Open Scope N_scope.

(* seelog.LogLevelFromString *)
Definition logLevels : list bytes := [str "trace"; str "debug"; str "info"; str "warn"; str "error"; str "critical"; str "off"].
Definition levelKnown (l : bytes) : bool := existsb (beq l) logLevels.

(* encoding/xml: the character that an entity stands for.  Simplified: numeric entities are not known. *)
Definition entityOf (n : bytes) : option N :=
  if beq n (str "amp") then Some 38 else if beq n (str "lt") then Some 60 else if beq n (str "gt") then Some 62
  else if beq n (str "quot") then Some 34 else if beq n (str "apos") then Some 39 else None.
Definition nameChar (c : N) : bool := ((65 <=? c) && (c <=? 90)) || ((97 <=? c) && (c <=? 122)) || ((48 <=? c) && (c <=? 57)).
(* encoding/xml: the value of an attribute up to the closing quotation mark, and what comes after it; [ent] is the name of an entity
   that is being read *)
Fixpoint attrValue (ent : option bytes) (s : bytes) : res (bytes * bytes) :=
  match s with
  | [] => Err "XML syntax error: unexpected EOF"
  | c :: r =>
    match ent with
    | Some n =>
      if c =? 59 then match entityOf n with
        | Some x => do (v, t) <- attrValue None r; Ok (x :: v, t)
        | None => Err "XML syntax error: invalid character entity"
        end
      else if nameChar c then attrValue (Some (n ++ [c])) r
      else Err "XML syntax error: invalid character entity (no semicolon)"
    | None =>
      if c =? 34 then Ok ([], r)
      else if c =? 60 then Err "XML syntax error: unescaped < inside quoted string"
      else if c =? 38 then attrValue (Some []) r
      else do (v, t) <- attrValue None r; Ok (c :: v, t)
    end
  end.
Fixpoint attrName (s : bytes) : bytes * bytes :=
  match s with c :: r => if nameChar c then let (n, t) := attrName r in (c :: n, t) else ([], s) | [] => ([], []) end.
Fixpoint skipBlanks (s : bytes) : bytes := match s with c :: r => if c =? 32 then skipBlanks r else s | [] => [] end.
(* encoding/xml: the attributes of an empty element, up to /> ; at most [n] of them *)
Fixpoint attrList (n : nat) (s : bytes) : res (list (bytes * bytes)) :=
  match n with
  | O => Err "too many attributes"
  | S n' =>
    match skipBlanks s with
    | 47 :: 62 :: _ => Ok []
    | s' =>
      let (name, t) := attrName s' in
      match name, t with
      | _ :: _, 61 :: 34 :: u => do (v, w) <- attrValue None u; do l <- attrList n' w; Ok ((name, v) :: l)
      | _, _ => Err "XML syntax error"
      end
    end
  end.
(* seelog keeps the attributes in a map: the last of a name counts *)
Fixpoint attrGet (n : bytes) (l : list (bytes * bytes)) : option bytes :=
  match l with [] => None | (k, v) :: r => match attrGet n r with Some x => Some x | None => if beq k n then Some v else None end end.
Definition rollingAttrs : list bytes := [str "type"; str "filename"; str "maxsize"; str "maxrolls"].
(* log/log.go:50-51 the element for the file with this path, behind its name *)
Definition rollingfile (path : bytes) : bytes :=
  str " type=""size"" filename=" ++ goQuote path ++ str " maxsize=""10485760"" maxrolls=""3"" />".
(* the file that seelog writes to *)
Definition fileOf (path : bytes) : res bytes :=
  do l <- attrList (8 + length path) (rollingfile path);
  if forallb (fun a => existsb (beq (fst a)) rollingAttrs) l then match attrGet (str "filename") l with Some f => Ok f | None => Err "seelog: no filename" end
  else Err "seelog: unexpected attribute".
(* log/log.go:32-76 Init; [path] is filepath.Join(logDir, execBase+.log), None if logDir is empty.  The result is the file written
   to.  Simplified: making the logger succeeds if the configuration can be read. *)
Definition logInit (level prefix : bytes) (path : option bytes) : res (option bytes) :=
  if negb (levelKnown level) then Err "log: level is invalid"
  else if negb (lenN prefix =? 5) then Err "len(cmdPrefix) must be 5"
  else match path with
  | None => Ok None
  | Some p => do f <- fileOf p; Ok (Some f)
  end.
