(* The update of Mute from its sources: ctrlengine/upkeep.go:159-233 updateMuteFromSource and 249-317 upkeepUpdate, with the
   wrappers util/git/git.go and util/gotool/gotool.go and the generator cmd/mutegenerate/mutegenerate.go.

   The programs git and go are not part of /repo.  git: the repository has local branches, tags and commits; checkout of a full
   hash gives that commit without a branch, of a branch name the branch, of a tag its commit; pull moves the current branch
   and brings commits.  go install of a pattern builds the commands of the commit checked out, of which, if it fails, any may have been
   replaced.  release/head.go is ignored by git (.gitignore) and so stays where it is on checkout.  Each program may fail at
   each call.  Simplified: nobody else changes the repository meanwhile; a name that starts with a dash, which git takes
   as an option, is not found; mutegenerate from PATH is any version of it, all of which write the same file. *)
From Verif Require Import Base CodecModel.
Delimit Scope string_scope with string.
Local Open Scope N_scope.

(* where HEAD points: to a branch, or to a commit (detached) *)
Inductive headAt := OnBranch (b : bytes) | Detached (c : bytes).
Record repo := mkRepo { rBranches : list (bytes * bytes); rTags : list (bytes * bytes); rCommits : list bytes; rHead : headAt; rDirty : bool }.
(* a built program: the commit of its sources and the constant release.Commit in it *)
Record build := mkBuild { bSource : bytes; bRelease : bytes }.
(* the repository, the commit in release/head.go, the installed programs *)
Record world := mkWorld { wRepo : repo; wHeadGo : option bytes; wBins : bytes -> option build }.
Definition setRepo (r : repo) (w : world) : world := mkWorld r (wHeadGo w) (wBins w).

Fixpoint assoc (k : bytes) (l : list (bytes * bytes)) : option bytes :=
  match l with [] => None | (k', v) :: l' => if beq k' k then Some v else assoc k l' end.
Definition hexDigit (c : N) : bool := ((48 <=? c) && (c <=? 57)) || ((97 <=? c) && (c <=? 102)).
Definition isHash (s : bytes) : bool := (lenN s =? 40) && forallb hexDigit s.
Definition inList (c : bytes) (l : list bytes) : bool := existsb (beq c) l.
Definition master : bytes := str "master".

(* util/git/git.go:66-74 Checkout *)
Definition resolve (name : bytes) (r : repo) : option headAt :=
  if isHash name then (if inList name (rCommits r) then Some (Detached name) else None)
  else match assoc name (rBranches r) with
  | Some _ => Some (OnBranch name)
  | None => match assoc name (rTags r) with Some c => Some (Detached c) | None => None end
  end.
Definition checkout (ok : bool) (name : bytes) (r : repo) : res repo :=
  match resolve name r with
  | Some h => if ok && negb (rDirty r) then Ok (mkRepo (rBranches r) (rTags r) (rCommits r) h (rDirty r)) else Err "exit status 1"
  | None => Err "exit status 1"
  end.
(* util/git/git.go:54-63 Pull: [p] is the new commit of the branch with the commits fetched *)
Definition pull (p : option (bytes * list bytes)) (r : repo) : res repo :=
  match p, rHead r with
  | Some (c, cs), OnBranch b => Ok (mkRepo ((b, c) :: rBranches r) (rTags r) (c :: cs ++ rCommits r) (rHead r) (rDirty r))
  | _, _ => Err "exit status 1"
  end.
(* util/git/git.go:17-33 GetHead *)
Definition headCommit (r : repo) : option bytes :=
  match rHead r with OnBranch b => assoc b (rBranches r) | Detached c => Some c end.
Definition getHead (ok : bool) (r : repo) : res bytes :=
  match headCommit r with Some c => if ok then Ok c else Err "exit status 1" | None => Err "exit status 1" end.
(* util/git/git.go:36-51 Status *)
Definition status (ok : bool) (r : repo) : res unit :=
  if negb ok then Err "exit status 1" else if rDirty r then Err "git directory is not clean" else Ok tt.

Section Update.
Variable cmds : bytes -> list bytes.    (* the commands below ./cmd in a commit *)

(* util/gotool/gotool.go:25-36 Install: [done] tells which programs are replaced although go install fails *)
Definition putBins (names : list bytes) (b : build) (bins : bytes -> option build) : bytes -> option build :=
  fun n => if inList n names then Some b else bins n.
Definition install (ok : bool) (done : bytes -> bool) (pattern : list bytes -> list bytes) (needsRelease : bool) (w : world) : res unit * world :=
  match headCommit (wRepo w) with
  | None => (Err "exit status 1", w)
  | Some c =>
    let names := pattern (cmds c) in
    match needsRelease, wHeadGo w with
    | true, None => (Err "exit status 1", w)      (* undefined: Commit *)
    | _, h =>
      let b := mkBuild c (match h with Some r => r | None => [] end) in
      if ok then (Ok tt, mkWorld (wRepo w) (wHeadGo w) (putBins names b (wBins w)))
      else (Err "exit status 1", mkWorld (wRepo w) (wHeadGo w) (putBins (filter done names) b (wBins w)))
    end
  end.
Definition mutegenerate : bytes := str "mutegenerate".
Definition onlyGenerate (names : list bytes) : list bytes := filter (fun n => beq n mutegenerate) names.
(* util/gotool/gotool.go:14-23 Generate in ./release, which runs cmd/mutegenerate/mutegenerate.go:75-102: the file is written
   if its commit is another one *)
Definition generate (ok : bool) (w : world) : res unit * world :=
  match headCommit (wRepo w) with
  | Some c => if ok then (Ok tt, mkWorld (wRepo w) (Some c) (wBins w)) else (Err "exit status 1", w)
  | None => (Err "exit status 1", w)
  end.

(* what the programs do in one update *)
Record env := mkEnv {
  eLook : bool; eStatus : bool; eMaster : bool; ePull : option (bytes * list bytes); eHead : bool; eCommit : bool;
  eGen : bool; eGenDone : bytes -> bool; eGenerate : bool; eInst : bool; eDone : bytes -> bool; eBack : bool }.

(* on an error return with the world as it is *)
Definition step {A} (r : res A * world) (k : A -> world -> res unit * world) : res unit * world :=
  match fst r with Ok a => k a (snd r) | Err e => (Err e, snd r) | Panic => (Panic, snd r) end.
Definition onRepo (f : repo -> res repo) (w : world) : res unit * world :=
  match f (wRepo w) with Ok r => (Ok tt, setRepo r w) | Err e => (Err e, w) | Panic => (Panic, w) end.
(* ctrlengine/upkeep.go:159-233 updateMuteFromSource *)
Definition updateMuteFromSource (e : env) (commit : bytes) (w : world) : res unit * world :=
  if negb (eLook e) then (Err "executable file not found in $PATH", w) else
  step (status (eStatus e) (wRepo w), w) (fun _ w =>
  step (onRepo (checkout (eMaster e) master) w) (fun _ w =>
  step (onRepo (pull (ePull e)) w) (fun _ w =>
  step (getHead (eHead e) (wRepo w), w) (fun head w =>
  let detached := negb (beq head commit) in
  step (if detached then onRepo (checkout (eCommit e) commit) w else (Ok tt, w)) (fun _ w =>
  step (install (eGen e) (eGenDone e) onlyGenerate false w) (fun _ w =>
  step (generate (eGenerate e) w) (fun _ w =>
  step (install (eInst e) (eDone e) (fun names => names) true w) (fun _ w =>
  if detached then onRepo (checkout (eBack e) master) w else (Ok tt, w))))))))).

(* ctrlengine/upkeep.go:249-317 upkeepUpdate after the configuration was fetched: [conf] is its map, [rel] and [date] are
   release.Commit and release.Date of the running program, [parse] is time.Parse(git.Date, _) *)
Inductive outcome := UpToDate | NewerBinary | Updated | Failed (e : String.string).
Section Main.
Variable parse : bytes -> option Z.
Definition upkeepUpdate (e : env) (conf : bytes -> bytes) (rel date : bytes) (w : world) : outcome * world :=
  let commit := conf (str "release.Commit") in
  if beq rel commit then (UpToDate, w)
  else match parse (conf (str "release.Date")) with
  | None => (Failed "parsing time"%string, w)
  | Some tRelease =>
    match parse date with
    | None => (Failed "parsing time"%string, w)
    | Some tBinary =>
      if (tRelease <? tBinary)%Z then (NewerBinary, w)
      else match updateMuteFromSource e commit w with
      | (Ok _, w') => (Updated, w')
      | (Err s, w') => (Failed s, w')
      | (Panic, w') => (Failed "panic"%string, w')
      end
    end
  end.
End Main.
End Update.
