(* C169-C170: the dialogue of mutectrl and mutecrypt when a contact is added. *)
From Verif Require Import Base Base64Model IdentityModel IdentityProofs CodecModel SqlModel MsgDBModel CryptoModel HashChainModel CtrlModel PipeModel PropsMsgDB PropsPipe DialogModel.
Local Open Scope N_scope.

(* ---- words and lines ---- *)
Definition noSpace (s : list N) : Prop := Forall (fun r => isSpace r = false) s.
Lemma wordsF_run w : forall rest cur, noSpace w -> wordsF (w ++ rest) cur = wordsF rest (rev w ++ cur).
Proof.
  induction w as [|r w IH]; intros rest cur N; [reflexivity|]. inversion_clear N as [|? ? R W]. cbn [app wordsF]. rewrite R, IH by exact W.
  cbn [rev]. rewrite <- app_assoc. reflexivity.
Qed.
Lemma words_one w : noSpace w -> w <> [] -> words w = [w].
Proof.
  intros N E. unfold words. rewrite <- (app_nil_r w) at 1. rewrite wordsF_run, app_nil_r by exact N. cbn [wordsF]. destruct (rev w) as [|x y] eqn:R.
  - exfalso. apply E. rewrite <- (rev_involutive w), R. reflexivity.
  - rewrite <- R, rev_involutive. reflexivity.
Qed.
Lemma words_cons w rest : noSpace w -> w <> [] -> words (w ++ 32 :: rest) = w :: words rest.
Proof.
  intros N E. unfold words. rewrite wordsF_run, app_nil_r by exact N. cbn [wordsF]. change (isSpace 32) with true. cbv iota. destruct (rev w) as [|x y] eqn:R.
  - exfalso. apply E. rewrite <- (rev_involutive w), R. reflexivity.
  - rewrite <- R, rev_involutive. reflexivity.
Qed.
Ltac plainWord := first [repeat constructor; fail | vm_compute; discriminate | idtac].
Lemma words4 a b c v : noSpace a -> a <> [] -> noSpace b -> b <> [] -> noSpace c -> c <> [] -> noSpace v -> v <> [] ->
  words (a ++ 32 :: b ++ 32 :: c ++ 32 :: v) = [a; b; c; v].
Proof. intros. rewrite !words_cons by assumption. rewrite words_one by assumption. reflexivity. Qed.
Definition noSpaceb (s : list N) : bool := forallb (fun r => negb (isSpace r)) s.
Lemma noSpaceb_ok s : noSpaceb s = true -> noSpace s.
Proof. intros H. apply Forall_forall. intros x I. unfold noSpaceb in H. rewrite forallb_forall in H. apply H in I. apply Bool.negb_true_iff, I. Qed.
Lemma linesF_run s : forall cur, ~ In 10 s -> linesF (s ++ [10]) cur = [chop_cr (rev cur ++ s)].
Proof.
  induction s as [|r s IH]; intros cur N; cbn [app linesF].
  - rewrite N.eqb_refl, app_nil_r. reflexivity.
  - replace (r =? 10) with false; [|symmetry; apply N.eqb_neq; intros ->; apply N; left; reflexivity]. rewrite IH; [|intros I; apply N; right; exact I].
    cbn [rev]. rewrite <- app_assoc. reflexivity.
Qed.
Lemma line_cmd pre v : ~ In 10 pre -> noSpace v -> v <> [] -> linesOf ((pre ++ v) ++ [10]) = [pre ++ v].
Proof.
  intros P N E. assert (V : ~ In 10 v).
  { intros I. unfold noSpace in N. rewrite Forall_forall in N. apply N in I. discriminate I. }
  unfold linesOf. rewrite linesF_run; [|intros I; apply in_app_or in I; tauto]. cbn [rev app]. rewrite chop_cr_id; [reflexivity|].
  rewrite last_app2 by exact E. destruct (exists_last E) as (s & d & ->). rewrite last_last. unfold noSpace in N. rewrite Forall_forall in N.
  intros ->. assert (X : isSpace 13 = false) by (apply N, in_or_app; right; left; reflexivity). discriminate X.
Qed.
Definition firstLine (e : list N) : list N := hd [] (linesOf (e ++ [10])).
Lemma linesF_ne s : forall cur, linesF (s ++ [10]) cur <> [].
Proof. induction s as [|r s IH]; intros cur; cbn [app linesF]; [discriminate|]. destruct (r =? 10); [discriminate|apply IH]. Qed.
Lemma lines_first e : exists more, linesOf (e ++ [10]) = firstLine e :: more.
Proof. unfold firstLine, linesOf. destruct (linesF (e ++ [10]) []) as [|a l] eqn:E; [exfalso; exact (linesF_ne e [] E)|]. exists l. reflexivity. Qed.

(* ------------------------------------------------------------------ *)
(* The specification: five operations on the key database, one after the other, up to the first that fails. *)
Section Spec.
Variable St : Type.
Variable prepare : St -> option (list N) * St.
Variable sync validate fetchInit : list N -> St -> outcome * St.
Variable search : list N -> bool -> St -> outcome * St.
Definition opened (f : St -> outcome * St) (s : St) : outcome * St :=
  match prepare s with (Some e, s1) => (AppFailed e, s1) | (None, s1) => f s1 end.
Definition plan (id domain : list N) : list (St -> outcome * St) :=
  [opened (sync domain); opened (validate domain); opened (search (str "keyserver@" ++ domain) false); opened (search id false); opened (fetchInit id)].
(* the text of the failure, the state left, and how many operations were tried *)
Fixpoint inOrder (l : list (St -> outcome * St)) (s : St) : option (list N) * St * nat :=
  match l with
  | [] => (None, s, 0%nat)
  | f :: l' =>
    match f s with
    | (Done, s1) => let '(r, s2, n) := inOrder l' s1 in (r, s2, S n)
    | (Failed e, s1) | (AppFailed e, s1) | (Crashed e, s1) => (Some e, s1, 1%nat)
    | (Quit, s1) => (Some [], s1, 1%nat)
    end
  end.
Definition cmdWords (id domain : list N) : list (list (list N)) :=
  [[str "hashchain"; str "sync"; str "--domain"; domain]; [str "hashchain"; str "validate"; str "--domain"; domain];
   [str "hashchain"; str "search"; str "--id"; str "keyserver@" ++ domain]; [str "hashchain"; str "search"; str "--id"; id];
   [str "keyinit"; str "fetch"; str "--id"; id]].
(* no operation asks the loop to end, and no error text starts with the line that means success *)
Definition honestOp (f : St -> outcome * St) : Prop :=
  forall s, match fst (f s) with Done => True | Quit => False | Failed e | AppFailed e | Crashed e => firstLine e <> READY end.
End Spec.
Arguments inOrder {St}. Arguments honestOp {St}.

Section Run.
Variable St : Type.
Variable action : list (list N) -> St -> outcome * St.
Fixpoint requests (l : list (list N)) (k : proc St -> answer * proc St) : proc St -> answer * proc St :=
  match l with [] => k | c :: l' => request St action c READY (requests l' k) end.
Lemma request_step c f k s tr : linesOf (c ++ [10]) = [c] -> c <> [] -> (forall s, action (words c) s = f s) -> honestOp f ->
  match f s with
  | (Done, s1) => request St action c READY k (mkProc true false [] s tr) = k (mkProc true false [] s1 (tr ++ [words c]))
  | (Failed e, s1) | (AppFailed e, s1) | (Crashed e, s1) => exists p, request St action c READY k (mkProc true false [] s tr) = (Reported (firstLine e), p) /\ pState p = s1 /\ pTrace p = tr ++ [words c]
  | (Quit, _) => False
  end.
Proof.
  intros L NE A H. assert (Hs := H s). unfold request. rewrite L. cbn [fold_left]. unfold loopLine. cbn [pRuns negb pState pOut pTrace].
  destruct c as [|c0 c']; [contradiction|]. set (c := c0 :: c') in *. rewrite A. destruct (f s) as [o s1]. cbn [fst] in Hs. destruct o as [|e|e| |e].
  - unfold say. cbn [pOut pRuns pFail pState pTrace app]. change (linesOf (READY ++ [10])) with [READY]. cbn [pOut]. rewrite beq_refl. reflexivity.
  - destruct (lines_first e) as [more E]. unfold say. cbn [pOut pRuns pFail pState pTrace app]. rewrite E. cbn [app]. rewrite (proj2 (beq_neq _ _) Hs). eexists. split; [reflexivity|]. split; reflexivity.
  - destruct (lines_first e) as [more E]. unfold say. cbn [pOut pRuns pFail pState pTrace app]. rewrite E. cbn [app]. rewrite (proj2 (beq_neq _ _) Hs). eexists. split; [reflexivity|]. split; reflexivity.
  - exact Hs.
  - destruct (lines_first e) as [more E]. unfold say. cbn [pOut pRuns pFail pState pTrace app]. rewrite E. cbn [app]. rewrite (proj2 (beq_neq _ _) Hs). eexists. split; [reflexivity|]. split; reflexivity.
Qed.
Lemma requests_inOrder k : forall l s tr, (forall c f, In (c, f) l -> linesOf (c ++ [10]) = [c] /\ c <> [] /\ (forall s, action (words c) s = f s) /\ honestOp f) ->
  match inOrder (map snd l) s with
  | (None, s', _) => requests (map fst l) k (mkProc true false [] s tr) = k (mkProc true false [] s' (tr ++ map words (map fst l)))
  | (Some e, s', n) => exists p, requests (map fst l) k (mkProc true false [] s tr) = (Reported (firstLine e), p) /\ pState p = s' /\ pTrace p = tr ++ firstn n (map words (map fst l))
  end.
Proof.
  induction l as [|[c f] l IH]; intros s tr H; cbn [map fst snd inOrder requests].
  - rewrite app_nil_r. reflexivity.
  - destruct (H c f (or_introl eq_refl)) as (L & NE & A & Ho). assert (St1 := request_step c f (requests (map fst l) k) s tr L NE A Ho).
    destruct (f s) as [o s1]. destruct o as [|e|e| |e].
    + rewrite St1. assert (IH1 := IH s1 (tr ++ [words c]) ltac:(intros c' f' I; apply H; right; exact I)).
      destruct (inOrder (map snd l) s1) as [[[e|] s2] n].
      * destruct IH1 as (p & E & P1 & P2). exists p. split; [exact E|]. split; [exact P1|]. rewrite P2, <- app_assoc. reflexivity.
      * rewrite IH1, <- app_assoc. reflexivity.
    + destruct St1 as (p & E & P1 & P2). exists p. cbn [firstn]. auto.
    + destruct St1 as (p & E & P1 & P2). exists p. cbn [firstn]. auto.
    + destruct St1.
    + destruct St1 as (p & E & P1 & P2). exists p. cbn [firstn]. auto.
Qed.
End Run.

(* ------------------------------------------------------------------ *)
(* C169.  The contact is added exactly if the hash chain was synchronised and validated, the entries of the key server and of
   the contact were found in it, and a key of the contact was fetched.
   Partial: for identities without white space, and error texts that do not start with the line "READY." *)
Section Main.
Variable St : Type.
Variable prepare : St -> option (list N) * St.
Variable sync validate fetchInit : list N -> St -> outcome * St.
Variable search : list N -> bool -> St -> outcome * St.
Variable other : list (list N) -> St -> outcome * St.
Let act := cryptAction St prepare sync validate fetchInit search other.
Lemma act_gen a b c v cmd s f : cmd = a ++ 32 :: b ++ 32 :: c ++ 32 :: v -> noSpace v -> v <> [] ->
  noSpaceb a = true -> a <> [] -> noSpaceb b = true -> b <> [] -> noSpaceb c = true -> c <> [] ->
  act [a; b; c; v] s = f s -> act (words cmd) s = f s.
Proof. intros -> N E A1 A2 B1 B2 C1 C2 H. rewrite words4; try assumption; try (apply noSpaceb_ok; assumption). Qed.
Ltac actGen a b c v := apply (act_gen a b c v); [reflexivity|assumption|assumption|reflexivity|discriminate|reflexivity|discriminate|reflexivity|discriminate|].
Lemma flags1 n v : flagOf (str "--" ++ n) = AFlag n None -> forall k, parseFlags ((n, true) :: k) [str "--" ++ n; v] = Ok ([(n, v)], []).
Proof. intros H k. cbn [parseFlags]. rewrite H. cbn [flagKind]. rewrite beq_refl. reflexivity. Qed.
Lemma act_cmd flags n f v s : flagOf (str "--" ++ n) = AFlag n None -> beq n (str "help") = false -> beq n (str "h") = false ->
  command St prepare ((n, true) :: flags) n f [str "--" ++ n; v] s = opened St prepare (f v [(n, v)]) s.
Proof.
  intros F H1 H2. unfold command. cbn [app]. rewrite flags1 by exact F. unfold flagTrue, flagVal. cbn [fold_left fst snd]. rewrite H1, H2, beq_refl. reflexivity.
Qed.
Lemma act_sync v s : noSpace v -> v <> [] -> act (words (cmdSync v)) s = opened St prepare (sync v) s.
Proof. intros N E. actGen (str "hashchain") (str "sync") (str "--domain") v. exact (act_cmd [] (str "domain") (fun v _ => sync v) v s eq_refl eq_refl eq_refl). Qed.
Lemma act_validate v s : noSpace v -> v <> [] -> act (words (cmdValidate v)) s = opened St prepare (validate v) s.
Proof. intros N E. actGen (str "hashchain") (str "validate") (str "--domain") v. exact (act_cmd [] (str "domain") (fun v _ => validate v) v s eq_refl eq_refl eq_refl). Qed.
Lemma act_search v s : noSpace v -> v <> [] -> act (words (cmdSearch v)) s = opened St prepare (search v false) s.
Proof.
  intros N E. actGen (str "hashchain") (str "search") (str "--id") v.
  exact (act_cmd [(str "search-only", false)] (str "id") (fun v fs => search v (flagTrue (str "search-only") fs)) v s eq_refl eq_refl eq_refl).
Qed.
Lemma act_fetch v s : noSpace v -> v <> [] -> act (words (cmdFetch v)) s = opened St prepare (fetchInit v) s.
Proof. intros N E. actGen (str "keyinit") (str "fetch") (str "--id") v. exact (act_cmd [] (str "id") (fun v _ => fetchInit v) v s eq_refl eq_refl eq_refl). Qed.
Lemma words_gen a b c v cmd : cmd = a ++ 32 :: b ++ 32 :: c ++ 32 :: v -> noSpace v -> v <> [] ->
  noSpaceb a = true -> a <> [] -> noSpaceb b = true -> b <> [] -> noSpaceb c = true -> c <> [] -> words cmd = [a; b; c; v].
Proof. intros -> N E A1 A2 B1 B2 C1 C2. apply words4; try assumption; apply noSpaceb_ok; assumption. Qed.
Ltac wordsGen a b c v := apply (words_gen a b c v); [reflexivity|assumption|assumption|reflexivity|discriminate|reflexivity|discriminate|reflexivity|discriminate].
Let dialogue := addContact St prepare sync validate fetchInit search other.
Let steps := plan St prepare sync validate fetchInit search.

Lemma dialogue_plan id domain s : noSpace id -> id <> [] -> noSpace domain -> domain <> [] -> (forall f, In f (steps id domain) -> honestOp f) ->
  match inOrder (steps id domain) s with
  | (None, s', _) => exists p, dialogue id domain s = (Exited true, p) /\ pState p = s' /\ pTrace p = cmdWords id domain ++ [[str "quit"]]
  | (Some e, s', n) => exists p, dialogue id domain s = (Reported (firstLine e), p) /\ pState p = s' /\ pTrace p = firstn n (cmdWords id domain)
  end.
Proof.
  intros N1 E1 N2 E2 H.
  assert (N3 : noSpace (str "keyserver@" ++ domain)) by (apply Forall_app; split; [apply noSpaceb_ok; reflexivity|exact N2]).
  assert (E3 : str "keyserver@" ++ domain <> []) by discriminate.
  set (cmds := [cmdSync domain; cmdValidate domain; cmdSearch (str "keyserver@" ++ domain); cmdSearch id; cmdFetch id]).
  set (l := combine cmds (steps id domain)).
  assert (M1 : map fst l = cmds) by reflexivity. assert (M2 : map snd l = steps id domain) by reflexivity.
  assert (W : map words cmds = cmdWords id domain).
  { unfold cmds, cmdWords. cbn [map]. f_equal; [wordsGen (str "hashchain") (str "sync") (str "--domain") domain|]. f_equal; [wordsGen (str "hashchain") (str "validate") (str "--domain") domain|].
    f_equal; [wordsGen (str "hashchain") (str "search") (str "--id") (str "keyserver@" ++ domain)|]. f_equal; [wordsGen (str "hashchain") (str "search") (str "--id") id|].
    f_equal. wordsGen (str "keyinit") (str "fetch") (str "--id") id. }
  set (fin := request St act (str "quit") QUITTING (fun p => if pRuns p then (Waits, p) else (Exited (negb (pFail p)), p))).
  assert (R := requests_inOrder St act fin l s []). rewrite M1, M2, W in R.
  assert (D : dialogue id domain s = requests St act cmds fin (mkProc true false [] s [])) by reflexivity. rewrite D.
  assert (L : forall c f, In (c, f) l -> linesOf (c ++ [10]) = [c] /\ c <> [] /\ (forall s, act (words c) s = f s) /\ honestOp f).
  { assert (NL : forall pre : String.string, forallb (fun c => negb (c =? 10)) (str pre) = true -> ~ In 10 (str pre)).
    { intros pre F I. rewrite forallb_forall in F. apply F in I. discriminate I. }
    intros c f I. split; [|split; [|split]].
    - unfold l, cmds, steps, plan in I. cbn [combine In] in I.
      destruct I as [I|[I|[I|[I|[I|[]]]]]]; apply pair_equal_spec in I as [<- _]; apply line_cmd; try assumption; apply NL; reflexivity.
    - unfold l, cmds, steps, plan in I. cbn [combine In] in I.
      destruct I as [I|[I|[I|[I|[I|[]]]]]]; apply pair_equal_spec in I as [<- _]; discriminate.
    - unfold l, cmds, steps, plan in I. cbn [combine In] in I.
      destruct I as [I|[I|[I|[I|[I|[]]]]]]; apply pair_equal_spec in I as [<- <-]; intros s0.
      + apply act_sync; assumption.
      + apply act_validate; assumption.
      + apply act_search; assumption.
      + apply act_search; assumption.
      + apply act_fetch; assumption.
    - apply H. rewrite <- M2. apply in_map_iff. exists (c, f). split; [reflexivity|exact I]. }
  specialize (R L). destruct (inOrder (steps id domain) s) as [[[e|] s'] n].
  - exact R.
  - rewrite R. unfold fin, request. eexists. split; [reflexivity|]. split; reflexivity.
Qed.

Theorem C169_partial id domain s : noSpace id -> id <> [] -> noSpace domain -> domain <> [] -> (forall f, In f (steps id domain) -> honestOp f) ->
  let '(r, s', _) := inOrder (steps id domain) s in
  fst (dialogue id domain s) = match r with None => Exited true | Some e => Reported (firstLine e) end /\ pState (snd (dialogue id domain s)) = s'.
Proof.
  intros N1 E1 N2 E2 H. assert (D := dialogue_plan id domain s N1 E1 N2 E2 H). destruct (inOrder (steps id domain) s) as [[[e|] s'] n];
    destruct D as (p & -> & P & _); split; try reflexivity; exact P.
Qed.
(* C170.  mutecrypt is given the five commands and quit, and nothing else. *)
Theorem C170_partial id domain s : noSpace id -> id <> [] -> noSpace domain -> domain <> [] -> (forall f, In f (steps id domain) -> honestOp f) ->
  exists n, pTrace (snd (dialogue id domain s)) = firstn n (cmdWords id domain ++ [[str "quit"]]).
Proof.
  intros N1 E1 N2 E2 H. assert (D := dialogue_plan id domain s N1 E1 N2 E2 H). destruct (inOrder (steps id domain) s) as [[[e|] s'] n] eqn:I;
    destruct D as (p & -> & _ & T); cbn [snd].
  - exists (Nat.min n 5). rewrite T. rewrite firstn_app. replace (Nat.min n 5 - length (cmdWords id domain))%nat with 0%nat by (cbn [length cmdWords]; lia).
    cbn [firstn]. rewrite app_nil_r. unfold cmdWords. do 6 (destruct n as [|n]; [reflexivity|]). reflexivity.
  - exists 6%nat. rewrite T. reflexivity.
Qed.
End Main.
Delimit Scope string_scope with string.

(* An identity that asks for help: nothing is looked up and the contact is added all the same.  The identity may come from the
   sender field of a received message: it is a mapped identity, and the line mutecrypt writes for it is read back unchanged. *)
Definition evil : list N := str "bob@x --help".
Definition c169db : msgdb := drun goUnicode [DAddNym exA (str "Ann@b.de") []] emptyDB.
Lemma evil_run St prepare sync validate fetchInit search other s :
  exists p, addContact St prepare sync validate fetchInit search other evil (str "x --help") s = (Exited true, p) /\ pState p = s.
Proof.
  exists (mkProc false false [] s [words (cmdSync (str "x --help")); words (cmdValidate (str "x --help")); words (cmdSearch (str "keyserver@x --help"));
    words (cmdSearch evil); words (cmdFetch evil); [str "quit"]]).
  split; [|reflexivity]. vm_compute. reflexivity.
Qed.
Theorem C169_help_refuted : exists id domain, isMapped goUnicode id = true /\ mapPlus goUnicode id = Ok (id, domain) /\
  (forall sig, parseSender (decryptStatus id sig) = Ok id) /\
  (forall St prepare sync validate fetchInit search other s, exists p,
     addContact St prepare sync validate fetchInit search other id domain s = (Exited true, p) /\ pState p = s) /\
  (do db <- contactAdd goUnicode (str "ann@b.de") id [] GrayList true c169db; getContact goUnicode (str "ann@b.de") id db) = Ok (id, [], WhiteList).
Proof.
  exists evil, (str "x --help"). split; [vm_compute; reflexivity|]. split; [vm_compute; reflexivity|]. split; [|split; [|vm_compute; reflexivity]].
  - intros sig. apply parseSender_plain. split; [vm_compute; intuition discriminate|]. split; [vm_compute; intuition discriminate|vm_compute; discriminate].
  - intros. apply evil_run.
Qed.

(* An error text of a server with the right lines: every operation fails, and the contact is added.  The state counts the
   operations done. *)
Definition nl : list N := [10].
Definition liar : list N := READY ++ nl ++ READY ++ nl ++ READY ++ nl ++ READY ++ nl ++ READY ++ nl ++ QUITTING.
Definition noPrep (s : list bool) : option (list N) * list bool := (None, s).
Definition failOp (_ : list N) (s : list bool) : outcome * list bool := (Failed liar, false :: s).
Definition failSearch (_ : list N) (_ : bool) (s : list bool) : outcome * list bool := (Failed (str "not found"), false :: s).
Definition failOther (_ : list (list N)) (s : list bool) : outcome * list bool := (Failed (str "unknown"), s).
Theorem C169_text_refuted : exists id domain, noSpace id /\ noSpace domain /\ mapPlus goUnicode id = Ok (id, domain) /\
  (forall v s, fst (failOp v s) <> Done) /\ (forall v b s, fst (failSearch v b s) <> Done) /\
  fst (addContact (list bool) noPrep failOp failOp failOp failSearch failOther id domain []) = Exited true.
Proof.
  exists (str "bob@x"), (str "x"). split; [apply noSpaceb_ok; reflexivity|]. split; [apply noSpaceb_ok; reflexivity|]. split; [vm_compute; reflexivity|].
  split; [discriminate|]. split; [discriminate|]. vm_compute. reflexivity.
Qed.

(* An identity with a newline: mutecrypt is given a command of its own. *)
Definition inject : list N := str "bob@x" ++ nl ++ str "hashchain delete --domain mute.berlin".
Definition okOp (_ : list N) (s : list (list (list N))) : outcome * list (list (list N)) := (Done, s).
Definition okSearch (_ : list N) (_ : bool) (s : list (list (list N))) : outcome * list (list (list N)) := (Done, s).
Definition okPrep (s : list (list (list N))) : option (list N) * list (list (list N)) := (None, s).
Definition record (c : list (list N)) (s : list (list (list N))) : outcome * list (list (list N)) := (Done, s ++ [c]).
Definition injectDomain : list N := str "x" ++ nl ++ str "hashchain delete --domain mute.berlin".
Definition del : list (list N) := [str "hashchain"; str "delete"; str "--domain"; str "mute.berlin"].
Lemma inject_run : addContact _ okPrep okOp okOp okOp okSearch record inject injectDomain [] =
  (Reported READY, mkProc false false [READY; READY; READY; READY; QUITTING] [del; del; del; del; del]
    [words (cmdSync (str "x")); del; words (cmdValidate (str "x")); del; words (cmdSearch (str "keyserver@x")); del;
     words (cmdSearch (str "bob@x")); del; words (cmdFetch (str "bob@x")); del; [str "quit"]]).
Proof. vm_compute. reflexivity. Qed.
Theorem C170_refuted : exists id domain c, mapPlus goUnicode id = Ok (id, domain) /\ hd [] c = str "hashchain" /\ nth 1 c [] = str "delete" /\
  let r := addContact _ okPrep okOp okOp okOp okSearch record id domain [] in In c (pTrace (snd r)) /\ In c (pState (snd r)).
Proof.
  exists inject, injectDomain, del. split; [vm_compute; reflexivity|]. split; [reflexivity|]. split; [reflexivity|]. cbv zeta. rewrite inject_run.
  split; [right; left; reflexivity|left; reflexivity].
Qed.

(* ---- examples ---- *)
(* the operations note what they were asked for; the contact's key cannot be fetched *)
Definition noteOp (n : String.string) (v : list N) (s : list (list N)) : outcome * list (list N) := (Done, s ++ [str n ++ 32 :: v]).
Definition noKey (v : list N) (s : list (list N)) : outcome * list (list N) := (Failed (str "no key" ++ nl ++ str "in the pool"), s).
Definition noteSearch (v : list N) (b : bool) (s : list (list N)) : outcome * list (list N) := (if b then Quit else Done, s ++ [str "search " ++ v]).
Definition noteOther (c : list (list N)) (s : list (list N)) : outcome * list (list N) := (Done, s ++ c).
Definition prep (s : list (list N)) : option (list N) * list (list N) := (None, s).
Example C169_ex_hyp : noSpace (str "bob@x") /\ noSpace (str "x") /\
  forall f, In f (plan _ prep (noteOp "sync"%string) (noteOp "validate"%string) noKey noteSearch (str "bob@x") (str "x")) -> honestOp f.
Proof.
  split; [apply noSpaceb_ok; reflexivity|]. split; [apply noSpaceb_ok; reflexivity|]. intros f I. unfold plan in I. cbn [In] in I.
  destruct I as [<-|[<-|[<-|[<-|[<-|[]]]]]]; intros s; cbn -[firstLine READY]; try exact Logic.I. vm_compute. discriminate.
Qed.
Example C169_ex_good :
  let r := addContact _ prep (noteOp "sync"%string) (noteOp "validate"%string) (noteOp "fetch"%string) noteSearch noteOther (str "bob@x") (str "x") [] in
  fst r = Exited true /\ pState (snd r) = [str "sync x"; str "validate x"; str "search keyserver@x"; str "search bob@x"; str "fetch bob@x"].
Proof. vm_compute. split; reflexivity. Qed.
Example C169_ex_bad :
  let r := addContact _ prep (noteOp "sync"%string) (noteOp "validate"%string) noKey noteSearch noteOther (str "bob@x") (str "x") [] in
  fst r = Reported (str "no key") /\ pState (snd r) = [str "sync x"; str "validate x"; str "search keyserver@x"; str "search bob@x"] /\ length (pTrace (snd r)) = 5%nat.
Proof. vm_compute. repeat split; reflexivity. Qed.

Print Assumptions C169_partial.
Print Assumptions C169_help_refuted.
Print Assumptions C169_text_refuted.
Print Assumptions C170_partial.
Print Assumptions C170_refuted.
