(* C188-C190: the generated release file names the commit checked out. *)
From Verif Require Import Base CodecModel JsonModel JsonProofs GenerateModel.
Delimit Scope string_scope with string.
Local Open Scope N_scope.

(* ---- specification ---- *)
(* a commit hash, and a date as git prints it: printable ASCII without the two characters that Go and JSON quote *)
Definition hexText (c : bytes) : Prop := forall x, In x c -> 48 <= x <= 57 \/ 97 <= x <= 102.
Definition plainText (d : bytes) : Prop := forall x, In x d -> 32 <= x <= 126 /\ x <> 34 /\ x <> 92.
(* the Go file has the line that sets the constant [name] to [v] *)
Definition sets (name v text : bytes) : Prop := In ([9] ++ name ++ str " = """ ++ v ++ [34]) (lines text).
(* runs of the generator: the exit status and the file after the last one *)
Fixpoint runs (gs : list genRun) (file : option bytes) : bool * option bytes :=
  match gs with [] => (true, file) | [g] => generate g file | g :: r => runs r (snd (generate g file)) end.
(* a run that is not cut short, in one mode, where the date belongs to the commit *)
Definition plainRun (release : bool) (dateOf : bytes -> bytes) (g : genRun) : Prop :=
  gRelease g = release /\ gWrite g = None /\ forall c d, gHead g = Some (c, d) -> hexText c /\ d = dateOf c.

(* ---- lines ---- *)
Lemma lines_nil s : lines s <> [].
Proof. destruct s as [|c r]; cbn [lines]; [discriminate|]. destruct (c =? 10); [discriminate|]. destruct (lines r); discriminate. Qed.
Lemma lines_app a b : lines (a ++ 10 :: b) = lines a ++ lines b.
Proof.
  induction a as [|c a IH]; [reflexivity|]. cbn [lines app]. rewrite IH.
  destruct (c =? 10); [reflexivity|]. destruct (lines a) as [|l t] eqn:E; [destruct (lines_nil _ E)|reflexivity].
Qed.
Lemma lines_one s : ~ In 10 s -> lines s = [s].
Proof.
  induction s as [|c s IH]; intros H; [reflexivity|]. cbn [lines].
  replace (c =? 10) with false by (symmetry; apply N.eqb_neq; intros ->; apply H; left; reflexivity).
  rewrite IH by (intros I; apply H; right; exact I). reflexivity.
Qed.
Lemma qchars s : plainText s -> flat_map qchar s = s.
Proof.
  induction s as [|c s IH]; intros H; [reflexivity|]. cbn [flat_map]. rewrite IH by (intros x I; apply H; right; exact I).
  destruct (H c (or_introl eq_refl)) as (A & B & D). clear H IH. unfold qchar.
  replace ((c =? 34) || (c =? 92)) with false by lia. replace (c =? 7) with false by lia. replace (c =? 8) with false by lia.
  replace (c =? 12) with false by lia. replace (c =? 10) with false by lia. replace (c =? 13) with false by lia.
  replace (c =? 9) with false by lia. replace (c =? 11) with false by lia. replace ((c <? 32) || (c =? 127)) with false by lia. reflexivity.
Qed.
Lemma hex_plain c : hexText c -> plainText c.
Proof. intros H x I. specialize (H x I). lia. Qed.
Lemma plain_nonl c : plainText c -> ~ In 10 c.
Proof. intros H I. specialize (H 10 I). lia. Qed.
Lemma nonl_app a b : ~ In 10 a -> ~ In 10 b -> ~ In 10 (a ++ b).
Proof. intros A B I. apply in_app_or in I as [I|I]; auto. Qed.
Lemma bit_nonl s : forallb (fun c => negb (c =? 10)) s = true -> ~ In 10 s.
Proof. intros H I. rewrite forallb_forall in H. specialize (H 10 I). discriminate H. Qed.

Definition cHead : bytes := Eval vm_compute in codeHead.
Definition cLine : bytes := Eval vm_compute in tab ++ commitPrefix.
Definition dLines : bytes := Eval vm_compute in tab ++ str "// Date is the git commit date.".
Definition dLine : bytes := Eval vm_compute in tab ++ str "Date = """.
Lemma code_text c d : plainText c -> plainText d ->
  printCode false c d = cHead ++ 10 :: (cLine ++ c ++ [34]) ++ 10 :: dLines ++ 10 :: (dLine ++ d ++ [34]) ++ 10 :: [41] ++ 10 :: [].
Proof.
  intros C D. unfold printCode, goQuote. rewrite !qchars by assumption.
  change codeHead with cHead. change cLine with (tab ++ commitPrefix). change dLines with (tab ++ str "// Date is the git commit date.").
  change dLine with (tab ++ str "Date = """). change commitPrefix with (str "Commit = " ++ [34]). change (str "Date = """) with (str "Date = " ++ [34]).
  unfold nl. rewrite <- ?app_assoc. cbn [app]. rewrite <- ?app_assoc. reflexivity.
Qed.
Lemma code_lines c d : plainText c -> plainText d ->
  lines (printCode false c d) = lines cHead ++ [cLine ++ c ++ [34]; dLines; dLine ++ d ++ [34]; [41]; []].
Proof.
  intros C D. rewrite (code_text c d C D), !lines_app.
  rewrite (lines_one (cLine ++ c ++ [34])) by (apply nonl_app; [apply bit_nonl; reflexivity|apply nonl_app; [apply plain_nonl, C|apply bit_nonl; reflexivity]]).
  rewrite (lines_one (dLine ++ d ++ [34])) by (apply nonl_app; [apply bit_nonl; reflexivity|apply nonl_app; [apply plain_nonl, D|apply bit_nonl; reflexivity]]).
  reflexivity.
Qed.

(* ---- the comparison of commits ---- *)
Lemma changed_pre ls ms c : forallb (fun l => match cut commitPrefix (trim l) with None => true | Some _ => false end) ls = true ->
  changedLines (ls ++ ms) c = changedLines ms c.
Proof.
  induction ls as [|l ls IH]; intros H; [reflexivity|]. cbn [forallb] in H. apply andb_true_iff in H as [A B].
  cbn [changedLines app]. destruct (cut commitPrefix (trim l)); [discriminate A|]. apply IH, B.
Qed.
Lemma trimLeft_rev s x : isSpace x = false -> trimLeft (rev (s ++ [x])) = rev (s ++ [x]).
Proof. intros H. rewrite rev_app_distr. cbn [rev app trimLeft]. rewrite H. reflexivity. Qed.
(* a line that starts like the one of the commit and ends with a visible character *)
Lemma cut_line v x : isSpace x = false -> cut commitPrefix (trim (cLine ++ v ++ [x])) = Some (v ++ [x]).
Proof.
  intros H. unfold trim. change cLine with (9 :: commitPrefix). cbn [app trimLeft]. change (isSpace 9) with true. cbv iota.
  change (commitPrefix) with (67 :: tl commitPrefix). cbn [app trimLeft]. change (isSpace 67) with false. cbv iota.
  change (67 :: tl commitPrefix ++ v ++ [x]) with (commitPrefix ++ v ++ [x]). rewrite app_assoc, trimLeft_rev by exact H. rewrite rev_involutive.
  rewrite <- app_assoc. reflexivity.
Qed.
Lemma cut_line0 : cut commitPrefix (trim cLine) = Some [].
Proof. reflexivity. Qed.
Lemma trimQuote_q v : trimQuote (v ++ [34]) = v.
Proof. unfold trimQuote. rewrite rev_app_distr. cbn [rev app]. apply rev_involutive. Qed.
Lemma trimQuote_x v x : x <> 34 -> trimQuote (v ++ [x]) = v ++ [x].
Proof.
  intros H. unfold trimQuote. rewrite rev_app_distr. cbn [rev app]. destruct x as [|p]; [reflexivity|].
  destruct p as [p|p|]; try reflexivity. destruct p as [p|p|]; try reflexivity. destruct p as [p|p|]; try reflexivity.
  destruct p as [p|p|]; try reflexivity. destruct p as [p|p|]; try reflexivity. destruct p as [p|p|]; try reflexivity. destruct H. reflexivity.
Qed.
Lemma changed_code c d c' : plainText c -> plainText d -> commitChanged (Some (printCode false c d)) c' = negb (beq c c').
Proof.
  intros C D. unfold commitChanged. rewrite code_lines by assumption. rewrite changed_pre by reflexivity.
  cbn [changedLines]. rewrite cut_line by reflexivity. rewrite trimQuote_q. reflexivity.
Qed.
(* the release file has no line that starts like that *)
Lemma cut_brace s : cut commitPrefix (trim (32 :: 32 :: 34 :: s)) = None.
Proof.
  unfold trim. cbn [trimLeft]. change (isSpace 32) with true. change (isSpace 34) with false. cbv iota.
  destruct (rev (34 :: s)) as [|x r] eqn:E; [exfalso; apply (f_equal (@List.length N)) in E; rewrite rev_length in E; discriminate E|].
  assert (G : forall r, last (trimLeft (r ++ [34])) 0 = 34).
  { clear. intros r. induction r as [|y r IH]; [reflexivity|]. cbn [app trimLeft]. destruct (isSpace y); [exact IH|].
    change (y :: r ++ [34]) with ((y :: r) ++ [34]). apply last_last. }
  cbn [rev] in E. rewrite <- E. specialize (G (rev s)). destruct (trimLeft (rev s ++ [34])) as [|y t] eqn:F; [reflexivity|].
  destruct (@exists_last _ (y :: t) ltac:(discriminate)) as (z & w & F2). rewrite F2 in G |- *. rewrite last_last in G. subst w.
  rewrite rev_app_distr. reflexivity.
Qed.
Definition vKey : bytes := Eval vm_compute in str "  ""release.Version"": ""0.5.0"",".
Definition cKey : bytes := Eval vm_compute in str "  ""release.Commit"": """.
Definition dKey : bytes := Eval vm_compute in str "  ""release.Date"": """.
Lemma release_text c d : plainText c -> plainText d ->
  printCode true c d = [123] ++ 10 :: vKey ++ 10 :: (cKey ++ c ++ [34; 44]) ++ 10 :: (dKey ++ d ++ [34]) ++ 10 :: [125] ++ 10 :: [].
Proof.
  intros C D. unfold printCode, goQuote. rewrite !qchars by (try assumption; intros x I; vm_compute in I; repeat (destruct I as [<-|I]; [lia|]); destruct I).
  change vKey with (str "  ""release.Version"": " ++ 34 :: versionNumber ++ [34] ++ str ",").
  change cKey with (str "  ""release.Commit"": " ++ [34]). change dKey with (str "  ""release.Date"": " ++ [34]).
  unfold nl. rewrite <- ?app_assoc. cbn [app]. rewrite <- ?app_assoc. reflexivity.
Qed.
Lemma changed_release c d c' : plainText c -> plainText d -> commitChanged (Some (printCode true c d)) c' = true.
Proof.
  intros C D. unfold commitChanged. rewrite release_text by assumption. rewrite !lines_app.
  rewrite (lines_one (cKey ++ c ++ [34; 44])) by (apply nonl_app; [apply bit_nonl; reflexivity|apply nonl_app; [apply plain_nonl, C|apply bit_nonl; reflexivity]]).
  rewrite (lines_one (dKey ++ d ++ [34])) by (apply nonl_app; [apply bit_nonl; reflexivity|apply nonl_app; [apply plain_nonl, D|apply bit_nonl; reflexivity]]).
  rewrite !app_assoc. rewrite <- (app_assoc _ (lines [125])). rewrite changed_pre; [reflexivity|].
  rewrite !forallb_app. cbn [forallb]. change cKey with (32 :: 32 :: 34 :: skipn 3 cKey). change dKey with (32 :: 32 :: 34 :: skipn 3 dKey).
  cbn [app]. rewrite !cut_brace. reflexivity.
Qed.

(* ---- C188 ---- *)
(* The Go file sets the two constants to the commit and the date of HEAD, and to nothing else. *)
Theorem C188_code c d : hexText c -> plainText d -> forall v,
  (sets (str "Commit") v (printCode false c d) <-> v = c) /\ (sets (str "Date") v (printCode false c d) <-> v = d).
Proof.
  intros C D v. apply hex_plain in C. unfold sets. rewrite code_lines by assumption.
  assert (A : forall a b : bytes, a ++ [34] = b ++ [34] -> a = b) by (intros a b E; apply app_inj_tail in E; tauto).
  change ([9] ++ str "Commit" ++ str " = """ ++ v ++ [34]) with (cLine ++ v ++ [34]).
  change ([9] ++ str "Date" ++ str " = """ ++ v ++ [34]) with (dLine ++ v ++ [34]).
  split; (split; [intros I; apply in_app_or in I as [I|I]|intros ->; apply in_or_app; right; cbn [In]; tauto]).
  - exfalso. vm_compute in I. repeat (destruct I as [I|I]; [discriminate I|]). destruct I.
  - cbn [In] in I. destruct I as [I|[I|[I|[I|[I|[]]]]]]; try (exfalso; vm_compute in I; discriminate I).
    apply app_inv_head in I. symmetry. apply A, I.
  - exfalso. vm_compute in I. repeat (destruct I as [I|I]; [discriminate I|]). destruct I.
  - cbn [In] in I. destruct I as [I|[I|[I|[I|[I|[]]]]]]; try (exfalso; vm_compute in I; discriminate I).
    apply app_inv_head in I. symmetry. apply A, I.
Qed.
(* The release file is a JSON object with the version, the commit and the date. *)
Lemma pstr_plain s r : plainText s -> pstr (s ++ 34 :: r) = Some (s, r).
Proof.
  unfold pstr. intros H. assert (G : forall f, (List.length s < f)%nat -> pchars f (s ++ 34 :: r) = Some (s, r)).
  { induction s as [|c s IH]; intros f L; (destruct f as [|f]; [inversion L|]); [apply pchars_end|].
    cbn [pchars app]. destruct (H c (or_introl eq_refl)) as (A & B & D).
    replace (c =? 34) with false by lia. replace (c =? 92) with false by lia. replace (c <? 32) with false by lia.
    rewrite IH; [reflexivity|intros x I; apply H; right; exact I|cbn [List.length] in L; lia]. }
  apply G. rewrite app_length. cbn [List.length]. lia.
Qed.
Lemma mem_step f k v t : plainText k -> plainText v ->
  pmembers (S (S f)) (10 :: 32 :: 32 :: 34 :: k ++ 34 :: 58 :: 32 :: 34 :: v ++ 34 :: t)
  = match eat 44 (skip_ws t) with
    | Some t3 => match pmembers (S f) t3 with Some (l, u) => Some ((k, JStr v) :: l, u) | None => None end
    | None => match eat 125 (skip_ws t) with Some t3 => Some ([(k, JStr v)], t3) | None => None end
    end.
Proof.
  intros K V. remember (S f) as g eqn:G. cbn [pmembers]. change (skip_ws (10 :: 32 :: 32 :: 34 :: ?x)) with (34 :: x).
  rewrite eat_same, pstr_plain by exact K. rewrite skip_ws_nows by reflexivity. rewrite eat_same. rewrite G at 1. cbn [pval].
  replace (skip_ws (32 :: 34 :: v ++ 34 :: t)) with (34 :: v ++ 34 :: t) by reflexivity. rewrite N.eqb_refl, pstr_plain by exact V. reflexivity.
Qed.
Theorem C188_release c d : hexText c -> plainText d -> jparse (printCode true c d)
  = Some (JObj [(str "release.Version", JStr (str "0.5.0")); (str "release.Commit", JStr c); (str "release.Date", JStr d)]).
Proof.
  intros C D. apply hex_plain in C. rewrite release_text by assumption. unfold jparse.
  assert (P : forall b, forallb (fun x => (32 <=? x) && (x <=? 126) && negb (x =? 34) && negb (x =? 92)) b = true -> plainText b).
  { intros b H x I. rewrite forallb_forall in H. specialize (H x I). lia. }
  set (T := [123] ++ 10 :: vKey ++ 10 :: (cKey ++ c ++ [34; 44]) ++ 10 :: (dKey ++ d ++ [34]) ++ 10 :: [125] ++ 10 :: []).
  assert (L : exists f, S (2 * List.length T) = S (S (S (S (S f))))).
  { exists (2 * List.length T - 4)%nat. assert (4 <= List.length T)%nat; [|lia]. unfold T. rewrite app_length. cbn [List.length]. rewrite app_length.
    change (List.length vKey) with 29%nat. lia. }
  destruct L as [f ->]. unfold T.
  change ([123] ++ 10 :: vKey ++ 10 :: ?r) with (123 :: 10 :: 32 :: 32 :: 34 :: str "release.Version" ++ 34 :: 58 :: 32 :: 34 :: str "0.5.0" ++ 34 :: 44 :: 10 :: r).
  assert (E : pmembers (S (S (S (S f)))) (10 :: 32 :: 32 :: 34 :: str "release.Version" ++ 34 :: 58 :: 32 :: 34 :: str "0.5.0" ++ 34 :: 44 :: 10 :: (cKey ++ c ++ [34; 44]) ++ 10 :: (dKey ++ d ++ [34]) ++ 10 :: [125] ++ [10])
    = Some ([(str "release.Version", JStr (str "0.5.0")); (str "release.Commit", JStr c); (str "release.Date", JStr d)], [10])).
  { rewrite mem_step by (apply P; reflexivity). rewrite skip_ws_nows by reflexivity. rewrite eat_same.
    replace (10 :: (cKey ++ c ++ [34; 44]) ++ 10 :: (dKey ++ d ++ [34]) ++ 10 :: [125] ++ [10])
      with (10 :: 32 :: 32 :: 34 :: str "release.Commit" ++ 34 :: 58 :: 32 :: 34 :: c ++ 34 :: 44 :: 10 :: 32 :: 32 :: 34 :: str "release.Date" ++ 34 :: 58 :: 32 :: 34 :: d ++ 34 :: 10 :: [125; 10])
      by (change cKey with (32 :: 32 :: 34 :: str "release.Commit" ++ [34; 58; 32; 34]); change dKey with (32 :: 32 :: 34 :: str "release.Date" ++ [34; 58; 32; 34]);
          rewrite <- !app_assoc; cbn [app]; rewrite <- !app_assoc; reflexivity).
    rewrite mem_step by (try assumption; apply P; reflexivity). rewrite skip_ws_nows by reflexivity. rewrite eat_same.
    rewrite mem_step by (try assumption; apply P; reflexivity). reflexivity. }
  remember (S (S (S (S f)))) as g eqn:G. cbn [pval]. rewrite skip_ws_nows by reflexivity. cbv iota.
  change (123 =? 34) with false. change (123 =? 91) with false. change (123 =? 123) with true. cbv iota.
  match goal with |- context [eat 125 (skip_ws ?x)] => change (eat 125 (skip_ws x)) with (@None bytes) end. cbv iota.
  rewrite E. reflexivity.
Qed.

(* Full statement: after a run that exits with status 0 the file is the text for HEAD in the mode asked for.  It holds after any number of
   runs in one mode, starting without a file, when no write is cut short and a commit has one date.  Missing: other modes before,
   writes cut short. *)
Lemma gen_inv release dateOf g file : (forall c, hexText c -> plainText (dateOf c)) -> plainRun release dateOf g ->
  (file = None \/ exists c, hexText c /\ file = Some (printCode release c (dateOf c))) ->
  (fst (generate g file) = true -> exists c d, gHead g = Some (c, d) /\ snd (generate g file) = Some (printCode release c d))
  /\ (snd (generate g file) = None \/ exists c, hexText c /\ snd (generate g file) = Some (printCode release c (dateOf c))).
Proof.
  intros HD (R & W & Hh) I. unfold generate. rewrite R, W.
  destruct (gHead g) as [[c d]|] eqn:E; [|split; [discriminate|exact I]]. destruct (Hh c d eq_refl) as [C ->].
  destruct (commitChanged file c) eqn:X.
  - destruct (gCreate g); cbn [fst snd]; (split; [|]); try discriminate; try exact I.
    + intros _. exists c, (dateOf c). split; reflexivity.
    + right. exists c. split; [exact C|reflexivity].
  - cbn [fst snd]. split; [|exact I]. intros _. exists c, (dateOf c). split; [reflexivity|].
    destruct I as [->|(c0 & C0 & ->)]; [discriminate X|]. destruct release.
    + rewrite changed_release in X by (auto using hex_plain). discriminate X.
    + rewrite changed_code in X by (auto using hex_plain). apply negb_false_iff, beq_spec in X as ->. reflexivity.
Qed.
Theorem C188_partial release dateOf gs g c d : (forall c, hexText c -> plainText (dateOf c)) -> Forall (plainRun release dateOf) (gs ++ [g]) ->
  gHead g = Some (c, d) -> fst (runs (gs ++ [g]) None) = true -> snd (runs (gs ++ [g]) None) = Some (printCode release c d).
Proof.
  intros HD F H. assert (G : forall file, (file = None \/ exists c, hexText c /\ file = Some (printCode release c (dateOf c))) ->
    fst (runs (gs ++ [g]) file) = true -> snd (runs (gs ++ [g]) file) = Some (printCode release c d)).
  { induction gs as [|a gs IH]; intros file I.
    - cbn [app runs]. cbn [app] in F. apply Forall_inv in F. destruct (gen_inv _ _ _ _ HD F I) as [A _]. intros T.
      destruct (A T) as (c1 & d1 & E1 & E2). rewrite H in E1. injection E1 as <- <-. exact E2.
    - cbn [app] in F |- *. pose proof (Forall_inv F) as Fa. apply Forall_inv_tail in F.
      destruct (gen_inv _ _ _ _ HD Fa I) as [_ B]. specialize (IH F _ B).
      replace (runs (a :: gs ++ [g]) file) with (runs (gs ++ [g]) (snd (generate a file))); [exact IH|].
      destruct gs; reflexivity. }
  apply G. left. reflexivity.
Qed.
(* Fixtures: a commit, a second one, and a date. *)
Definition exCommit : bytes := Eval vm_compute in str "97e3a4a6ffdbb0d9a5a2b6a5ad26a5a0a1b2c3d4".
Definition exOther : bytes := Eval vm_compute in str "0123456789abcdef0123456789abcdef01234567".
Definition exDate : bytes := Eval vm_compute in str "Mon Nov 16 21:32:02 2015 +0000".
Lemma exHex : hexText exCommit /\ hexText exOther.
Proof. split; intros x I; vm_compute in I; repeat (destruct I as [<-|I]; [lia|]); destruct I. Qed.
Lemma exPlain : plainText exDate.
Proof. intros x I. vm_compute in I. repeat (destruct I as [<-|I]; [lia|]). destruct I. Qed.
Definition exRun (c : bytes) : genRun := mkGen false (Some (c, exDate)) true None.
(* Three runs: a first commit, a second one with a failing git in between. *)
Example C188_ex : Forall (plainRun false (fun _ => exDate)) [exRun exCommit; mkGen false None true None; exRun exOther]
  /\ fst (runs [exRun exCommit; mkGen false None true None; exRun exOther] None) = true
  /\ snd (runs [exRun exCommit; mkGen false None true None] None) <> snd (runs [exRun exCommit; mkGen false None true None; exRun exOther] None).
Proof.
  split; [|split; [vm_compute; reflexivity|intros H; vm_compute in H; discriminate H]].
  repeat apply Forall_cons; try apply Forall_nil; (split; [reflexivity|split; [reflexivity|]]); cbn [gHead exRun]; intros c d E;
    (discriminate E || (assert (E0 := f_equal (fun o => match o with Some p => p | None => (c, d) end) E); cbn in E0; apply pair_equal_spec in E0 as [<- <-]; split; [apply exHex|reflexivity])).
Qed.
(* If git fails, so does the run, and the file stays. *)
Theorem C188_status g file : gHead g = None -> generate g file = (false, file).
Proof. intros H. unfold generate. rewrite H. reflexivity. Qed.
(* A file generated as Go code is not replaced when the release file of the same commit is asked for. *)
Theorem C188_mode_refuted : exists g1 g2 c d, gHead g2 = Some (c, d) /\ hexText c /\ plainText d /\ gRelease g2 = true /\ gWrite g1 = None /\ gWrite g2 = None
  /\ fst (runs [g1; g2] None) = true /\ snd (runs [g1; g2] None) <> Some (printCode true c d) /\ jparse (match snd (runs [g1; g2] None) with Some t => t | None => [] end) = None.
Proof.
  exists (exRun exCommit), (mkGen true (Some (exCommit, exDate)) true None), exCommit, exDate.
  split; [reflexivity|]. split; [apply exHex|]. split; [apply exPlain|]. do 3 (split; [reflexivity|]). split; [vm_compute; reflexivity|].
  split; [intros H; vm_compute in H; discriminate H|vm_compute; reflexivity].
Qed.

(* ---- C189 ---- *)
(* The Go file is not written again while HEAD stays the same: the run succeeds even where it could not create the file. *)
Theorem C189_partial c d g : hexText c -> plainText d -> (exists d', gHead g = Some (c, d')) ->
  generate g (Some (printCode false c d)) = (true, Some (printCode false c d)).
Proof.
  intros C D [d' H]. unfold generate. rewrite H, changed_code by (auto using hex_plain). rewrite beq_refl. reflexivity.
Qed.
(* For another commit it is written. *)
Theorem C189_other c d c' d' g : hexText c -> plainText d -> c' <> c -> gHead g = Some (c', d') -> gWrite g = None ->
  generate g (Some (printCode false c d)) = (gCreate g, Some (if gCreate g then printCode (gRelease g) c' d' else printCode false c d)).
Proof.
  intros C D Hn H W. unfold generate. rewrite H, changed_code by (auto using hex_plain). rewrite W.
  replace (beq c c') with false by (symmetry; apply beq_neq; congruence). cbn [negb]. destruct (gCreate g); reflexivity.
Qed.
(* The release file is written at each run, so a run in a place that may not be written fails though there is nothing to do. *)
Theorem C189_refuted : forall c d, hexText c -> plainText d -> exists g, gHead g = Some (c, d) /\ gRelease g = true
  /\ fst (generate g (Some (printCode true c d))) = false.
Proof.
  intros c d C D. exists (mkGen true (Some (c, d)) false None). split; [reflexivity|]. split; [reflexivity|].
  unfold generate. cbn [gHead gCreate]. rewrite changed_release by (auto using hex_plain). reflexivity.
Qed.
Example C189_ex : commitChanged (Some (printCode false exCommit exDate)) exCommit = false /\ commitChanged (Some (printCode false exCommit exDate)) exOther = true.
Proof. split; vm_compute; reflexivity. Qed.

(* ---- C190 ---- *)
(* Full statement: a Go file that was written in part is replaced by the next run.  It is exactly if it ends before the last digit of the
   commit. *)
Definition upTo (c : bytes) : bytes := cHead ++ 10 :: cLine ++ c.
Lemma heads : forallb (fun k => forallb (fun l => match cut commitPrefix (trim l) with None => true | Some _ => false end) (lines (firstn k (cHead ++ 10 :: cLine))))
  (seq 0 (List.length (cHead ++ 10 :: cLine))) = true.
Proof. vm_compute. reflexivity. Qed.
Lemma prefix_two {A} (p q a b : list A) : p ++ q = a ++ b -> (exists r, a = p ++ r /\ r <> []) \/ exists r, p = a ++ r.
Proof.
  revert a. induction p as [|x p IH]; intros a E; cbn [app] in E.
  - destruct a as [|y a]; [right; exists []; reflexivity|left; exists (y :: a); split; [reflexivity|discriminate]].
  - destruct a as [|y a]; [right; exists (x :: p); reflexivity|]. injection E as <- E. destruct (IH a E) as [(r & -> & Hr)|(r & ->)].
    + left. exists r. split; [reflexivity|exact Hr].
    + right. exists r. reflexivity.
Qed.
Lemma hex_vis x c : hexText c -> In x c -> isSpace x = false /\ x <> 34.
Proof. intros C I. specialize (C x I). unfold isSpace. lia. Qed.
Lemma torn_line a x c : isSpace x = false -> x <> 34 -> ~ In 10 a -> x <> 10 ->
  changedLines (lines (cHead ++ 10 :: cLine ++ a ++ [x])) c = negb (beq (a ++ [x]) c).
Proof.
  intros S Q A X. rewrite lines_app, changed_pre by reflexivity.
  rewrite lines_one by (apply nonl_app; [apply bit_nonl; reflexivity|apply nonl_app; [exact A|intros [E|[]]; exact (X E)]]).
  cbn [changedLines]. rewrite cut_line by exact S. rewrite trimQuote_x by exact Q. reflexivity.
Qed.
Theorem C190_partial c d p q : hexText c -> c <> [] -> plainText d -> p ++ q = printCode false c d ->
  (commitChanged (Some p) c = true <-> (List.length p < List.length (upTo c))%nat).
Proof.
  intros C Cn D E. unfold commitChanged.
  assert (E2 : p ++ q = upTo c ++ 34 :: 10 :: dLines ++ 10 :: (dLine ++ d ++ [34]) ++ 10 :: [41] ++ [10]).
  { rewrite E, code_text by (auto using hex_plain). unfold upTo. rewrite <- !app_assoc. cbn [app]. rewrite <- !app_assoc. reflexivity. }
  assert (V : forall a, a <> [] -> (exists b, a ++ b = c) -> changedLines (lines (cHead ++ 10 :: cLine ++ a)) c = negb (beq a c)).
  { intros a An [b B]. destruct (exists_last An) as (a' & x & ->).
    assert (X : hexText (a' ++ [x])) by (intros y I; apply C; rewrite <- B; apply in_or_app; left; exact I).
    destruct (hex_vis x _ X ltac:(apply in_or_app; right; left; reflexivity)) as [X1 X2].
    apply torn_line; [exact X1|exact X2| |].
    - intros I. specialize (X 10 ltac:(apply in_or_app; left; exact I)). lia.
    - intros ->. specialize (X 10 ltac:(apply in_or_app; right; left; reflexivity)). lia. }
  destruct (prefix_two _ _ _ _ E2) as [(r & U & Rn)|(r & ->)].
  - (* shorter than the commit *)
    split; [intros _; rewrite U, app_length; destruct r; [destruct Rn; reflexivity|cbn [List.length]; lia]|intros _].
    unfold upTo in U. replace (cHead ++ 10 :: cLine ++ c) with ((cHead ++ 10 :: cLine) ++ c) in U by (rewrite <- app_assoc; reflexivity).
    destruct (prefix_two p r (cHead ++ 10 :: cLine) c (eq_sym U)) as [(s & Hs & Sn)|(s & ->)].
    + pose proof heads as HH. rewrite forallb_forall in HH. specialize (HH (List.length p)).
      rewrite Hs in HH at 2. rewrite firstn_app, firstn_all, Nat.sub_diag, app_nil_r in HH.
      rewrite <- (app_nil_r (lines p)), changed_pre; [reflexivity|]. apply HH. apply in_seq. rewrite Hs, app_length.
      destruct s; [destruct Sn; reflexivity|cbn [List.length]; lia].
    + rewrite <- (app_assoc (cHead ++ 10 :: cLine) s r) in U. apply app_inv_head in U. rewrite <- app_assoc. cbn [app].
      destruct s as [|y s].
      * rewrite app_nil_r, lines_app, changed_pre by reflexivity. change (lines cLine) with [cLine]. cbn [changedLines]. rewrite cut_line0.
        change (trimQuote []) with (@nil N). destruct c; [destruct Cn; reflexivity|reflexivity].
      * rewrite V; [|discriminate|exists r; symmetry; exact U]. rewrite negb_true_iff. apply beq_neq. intros X. rewrite X in U.
        rewrite <- (app_nil_r c) in U at 1. apply app_inv_head in U. destruct Rn. symmetry. exact U.
  - (* the commit is complete *)
    split; [|rewrite app_length; lia]. intros X. exfalso. rewrite <- app_assoc in E2. apply app_inv_head in E2. unfold upTo in X.
    destruct r as [|y r].
    + rewrite app_nil_r in X. rewrite V in X; [|exact Cn|exists []; apply app_nil_r]. rewrite beq_refl in X. discriminate X.
    + cbn [app] in E2. injection E2 as -> E2.
      assert (G : changedLines (lines ((cHead ++ 10 :: cLine ++ c) ++ 34 :: r)) c = false); [|congruence].
      replace ((cHead ++ 10 :: cLine ++ c) ++ 34 :: r) with (cHead ++ 10 :: (cLine ++ c ++ [34]) ++ r) by (rewrite <- !app_assoc; cbn [app]; rewrite <- !app_assoc; reflexivity).
      assert (L : exists t, lines ((cLine ++ c ++ [34]) ++ r) = (cLine ++ c ++ [34]) :: t).
      { assert (N0 : ~ In 10 (cLine ++ c ++ [34])) by (apply nonl_app; [apply bit_nonl; reflexivity|apply nonl_app; [apply plain_nonl, hex_plain, C|apply bit_nonl; reflexivity]]).
        destruct r as [|z r]; [rewrite app_nil_r, lines_one by exact N0; exists []; reflexivity|].
        cbn [app] in E2. injection E2 as -> _. rewrite lines_app, (lines_one _ N0). eexists. reflexivity. }
      destruct L as [t L]. rewrite lines_app, L, changed_pre by reflexivity. cbn [changedLines]. rewrite cut_line by reflexivity.
      rewrite trimQuote_q, beq_refl. reflexivity.
Qed.
(* A run on a full disk exits with status 0, leaves a file that sets neither constant, and no later run at this commit repairs it. *)
Theorem C190_refuted : exists g p, gHead g = Some (exCommit, exDate) /\ generate g None = (true, Some p)
  /\ (forall v, ~ sets (str "Commit") v p /\ ~ sets (str "Date") v p)
  /\ forall gs, gs <> [] -> Forall (fun g' => gHead g' = Some (exCommit, exDate)) gs -> runs gs (Some p) = (true, Some p).
Proof.
  exists (mkGen false (Some (exCommit, exDate)) true (Some (List.length (upTo exCommit)))), (upTo exCommit).
  split; [reflexivity|]. split; [vm_compute; reflexivity|]. split.
  - assert (L : lines (upTo exCommit) = lines cHead ++ [cLine ++ exCommit]) by (vm_compute; reflexivity).
    intros v. unfold sets. rewrite L. split; intros I; apply in_app_or in I as [I|[I|[]]].
    + vm_compute in I. repeat (destruct I as [I|I]; [discriminate I|]). destruct I.
    + change ([9] ++ str "Commit" ++ str " = """ ++ v ++ [34]) with (cLine ++ v ++ [34]) in I. apply app_inv_head in I.
      assert (In 34 exCommit) by (rewrite I; apply in_or_app; right; left; reflexivity). pose proof (proj1 exHex 34 H). lia.
    + vm_compute in I. repeat (destruct I as [I|I]; [discriminate I|]). destruct I.
    + vm_compute in I. discriminate I.
  - assert (K : commitChanged (Some (upTo exCommit)) exCommit = false) by (vm_compute; reflexivity).
    intros gs. induction gs as [|g gs IH]; intros Hn F; [destruct Hn; reflexivity|].
    assert (O : generate g (Some (upTo exCommit)) = (true, Some (upTo exCommit))) by (unfold generate; rewrite (Forall_inv F), K; reflexivity).
    destruct gs as [|g2 gs]; [exact O|]. change (runs (g :: g2 :: gs) (Some (upTo exCommit))) with (runs (g2 :: gs) (snd (generate g (Some (upTo exCommit))))).
    rewrite O. apply IH; [discriminate|exact (Forall_inv_tail F)].
Qed.
Example C190_ex : exists p q, p ++ q = printCode false exCommit exDate /\ commitChanged (Some p) exCommit = true /\ (100 < List.length p)%nat.
Proof.
  exists (firstn 200 (printCode false exCommit exDate)), (skipn 200 (printCode false exCommit exDate)).
  split; [apply firstn_skipn|]. split; [vm_compute; reflexivity|]. replace (List.length (firstn 200 (printCode false exCommit exDate))) with 200%nat by (vm_compute; reflexivity). lia.
Qed.

Print Assumptions C188_code.
Print Assumptions C188_release.
Print Assumptions C188_partial.
Print Assumptions C188_status.
Print Assumptions C188_mode_refuted.
Print Assumptions C189_partial.
Print Assumptions C189_other.
Print Assumptions C189_refuted.
Print Assumptions C190_partial.
Print Assumptions C190_refuted.
