(* The generator of release/head.go and of the release section of the configuration: cmd/mutegenerate/mutegenerate.go.

   Not modelled: the options -t and the output to standard output.  git (util/git/git.go:17-33 GetHead) is a parameter: the commit and
   the date of HEAD, or an error.  Simplified: %q copies bytes from 128 on, TrimSpace knows the white space of ASCII only. *)
From Verif Require Import Base Base64Model CodecModel JsonModel.
Delimit Scope string_scope with string.
Local Open Scope N_scope.

(* fmt: the verb %q *)
Definition qchar (c : N) : bytes :=
  if (c =? 34) || (c =? 92) then [92; c]
  else if c =? 7 then str "\a" else if c =? 8 then str "\b" else if c =? 12 then str "\f" else if c =? 10 then str "\n"
  else if c =? 13 then str "\r" else if c =? 9 then str "\t" else if c =? 11 then str "\v"
  else if (c <? 32) || (c =? 127) then str "\x" ++ [hexchar (c / 16); hexchar (c mod 16)]
  else [c].
Definition goQuote (s : bytes) : bytes := 34 :: flat_map qchar s ++ [34].
Definition nl : bytes := [10].
Definition tab : bytes := [9].
(* def/version/version.go *)
Definition versionNumber : bytes := str "0.5.0".

(* cmd/mutegenerate/mutegenerate.go:21-41 printCode *)
Definition codeHead : bytes :=
  str "package release" ++ nl ++ nl ++ str "// This code has been generated by mutegenerate." ++ nl
  ++ str "// DO NOT EDIT AND DO NOT COMMIT TO REPOSITORY!" ++ nl ++ nl ++ str "const (" ++ nl ++ tab ++ str "// Commit is the git commit hash.".
Definition printCode (release : bool) (commit date : bytes) : bytes :=
  if release then
    str "{" ++ nl ++ str "  ""release.Version"": " ++ goQuote versionNumber ++ str "," ++ nl
    ++ str "  ""release.Commit"": " ++ goQuote commit ++ str "," ++ nl
    ++ str "  ""release.Date"": " ++ goQuote date ++ nl ++ str "}" ++ nl
  else
    codeHead ++ nl ++ tab ++ str "Commit = " ++ goQuote commit ++ nl
    ++ tab ++ str "// Date is the git commit date." ++ nl ++ tab ++ str "Date = " ++ goQuote date ++ nl ++ str ")" ++ nl.

(* strings.Split(s, "\n") *)
Fixpoint lines (s : bytes) : list bytes :=
  match s with
  | [] => [[]]
  | c :: r => if c =? 10 then [] :: lines r else match lines r with l :: t => (c :: l) :: t | [] => [[c]] end
  end.
(* strings.TrimSpace *)
Definition isSpace (c : N) : bool := ((9 <=? c) && (c <=? 13)) || (c =? 32).
Fixpoint trimLeft (s : bytes) : bytes := match s with c :: r => if isSpace c then trimLeft r else s | [] => [] end.
Definition trim (s : bytes) : bytes := rev (trimLeft (rev (trimLeft s))).
(* strings.HasPrefix and strings.TrimPrefix *)
Fixpoint cut (p s : bytes) : option bytes :=
  match p, s with
  | [], _ => Some s
  | a :: p', b :: s' => if a =? b then cut p' s' else None
  | _, [] => None
  end.
(* strings.TrimSuffix of a quotation mark *)
Definition trimQuote (s : bytes) : bytes := match rev s with 34 :: r => rev r | _ => s end.
(* cmd/mutegenerate/mutegenerate.go:49-61, the loop of commitChanged *)
Definition commitPrefix : bytes := str "Commit = """.
Fixpoint changedLines (ls : list bytes) (commit : bytes) : bool :=
  match ls with
  | [] => true
  | l :: r => match cut commitPrefix (trim l) with Some v => negb (beq (trimQuote v) commit) | None => changedLines r commit end
  end.
(* cmd/mutegenerate/mutegenerate.go:43-62 commitChanged *)
Definition commitChanged (file : option bytes) (commit : bytes) : bool :=
  match file with None => true | Some t => changedLines (lines t) commit end.

(* One run of mutegenerate -o: the mode, HEAD, whether the file can be created, and, if the disk fills up or the machine stops, how much
   of the text reaches the file. *)
Record genRun := mkGen { gRelease : bool; gHead : option (bytes * bytes); gCreate : bool; gWrite : option nat }.
(* cmd/mutegenerate/mutegenerate.go:75-102 main with -o: exit status 0 or not, and the file.  Errors of Fprintf are not looked at. *)
Definition generate (g : genRun) (file : option bytes) : bool * option bytes :=
  match gHead g with
  | None => (false, file)
  | Some (commit, date) =>
    if commitChanged file commit then
      if gCreate g then
        let text := printCode (gRelease g) commit date in
        (true, Some (match gWrite g with None => text | Some n => firstn n text end))
      else (false, file)
    else (true, file)
  end.
