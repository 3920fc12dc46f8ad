(* C203: the vacuum modes of the databases. *)
From Verif Require Import Base IdentityModel IdentityProofs DialogModel MsgDBModel CliModel PropsCli VacuumModel.
Local Open Scope N_scope.

(* ------------------------------------------------------------------ *)
(* The specification.  A mode is one of three names.  What the user sees of a database: mode, free pages, data. *)
Definition isMode (m : list N) : Prop := m = str "NONE" \/ m = str "FULL" \/ m = str "INCREMENTAL".
Definition shows (d : vdb) (m : list N) (free : N) : Prop := encStatus true true d = Ok (m, free).
(* no VACUUM failed *)
Definition calm (o : vop) : Prop := match o with VVacuum _ _ v _ => v = true | _ => True end.
(* since the database was opened no VACUUM failed *)
Definition untroubled (ops : list vop) : Prop := exists pre post, ops = pre ++ VReopen :: post /\ Forall calm post.

(* ------------------------------------------------------------------ *)
Definition okDb (d : vdb) : Prop := vMode d < 3 /\ match vNext d with Some k => k < 3 | None => True end.
Definition settled (d : vdb) : Prop := vNext d = None \/ vNext d = Some (vMode d).
Lemma modeNo_lt m : modeNo m < 3.
Proof. unfold modeNo. destruct (beq m _); [lia|]. destruct (beq m _); lia. Qed.
Lemma mode_cases d : okDb d -> vMode d = 0 \/ vMode d = 1 \/ vMode d = 2.
Proof. intros [A _]. lia. Qed.
Lemma name_cases d : okDb d -> modeName (vMode d) = Ok (str "NONE") /\ vMode d = 0 \/ modeName (vMode d) = Ok (str "FULL") /\ vMode d = 1 \/ modeName (vMode d) = Ok (str "INCREMENTAL") /\ vMode d = 2.
Proof. intros O. destruct (mode_cases d O) as [E|[E|E]]; rewrite E; auto. Qed.
Lemma known m : containsString autoVacuumModes m = true <-> isMode m.
Proof.
  unfold isMode. cbn [autoVacuumModes containsString].
  destruct (beq (str "NONE") m) eqn:A; [apply beq_spec in A; split; auto|]. destruct (beq (str "FULL") m) eqn:B; [apply beq_spec in B; split; auto|].
  destruct (beq (str "INCREMENTAL") m) eqn:D; [apply beq_spec in D; split; auto|]. apply beq_neq in A, B, D. split; [discriminate|]. intros [X|[X|X]]; congruence.
Qed.
Lemma name_no m d : isMode m -> okDb d -> modeName (modeNo m) = Ok m /\ (modeName (vMode d) = Ok m <-> vMode d = modeNo m).
Proof.
  intros M O. destruct (name_cases d O) as [[E F]|[[E F]|[E F]]]; rewrite E, F; destruct M as [-> | [-> | ->]]; split; try reflexivity; split; intros X; try reflexivity; try (vm_compute in X; discriminate X).
Qed.
Lemma mode_not_nil m : isMode m -> isNil m = false.
Proof. intros [-> | [-> | ->]]; reflexivity. Qed.

Lemma ok_pragma k d : k < 3 -> okDb d -> okDb (pragmaSet k d).
Proof. intros K [A B]. split; cbn [pragmaSet vMode vNext]; [destruct (Bool.eqb _ _); assumption|exact K]. Qed.
Lemma ok_vacuum d : okDb d -> okDb (vacuumCmd d).
Proof. intros [A B]. split; cbn [vacuumCmd vMode vNext]; [destruct (vNext d); assumption|exact B]. Qed.
Lemma settled_vacuum d : settled (vacuumCmd d).
Proof. unfold settled. cbn [vacuumCmd vMode vNext]. destruct (vNext d); auto. Qed.
Lemma ok_step d o : okDb d -> okDb (vstep d o).
Proof.
  intros O. destruct o as [f r| |q s v m|q x k p]; cbn [vstep].
  - exact O.
  - split; [exact (proj1 O)|exact I].
  - unfold encVacuum. destruct (isNil m); [destruct v; [apply ok_vacuum, O|exact O]|]. destruct (negb (containsString _ m)); [exact O|]. destruct (negb q); [exact O|].
    destruct (modeName (vMode d)) as [c|e|]; try exact O. destruct (beq c m); [destruct v; [apply ok_vacuum, O|exact O]|]. destruct s; [|exact O].
    pose proof (ok_pragma (modeNo m) d (modeNo_lt m) O) as P. destruct v; [apply ok_vacuum, P|exact P].
  - unfold encIncremental. destruct (negb q); [exact O|]. destruct (modeName (vMode d)) as [c|e|]; try exact O. destruct (negb _); [exact O|]. destruct x; exact O.
Qed.
Lemma ok_fold ops : forall d, okDb d -> okDb (fold_left vstep ops d).
Proof. induction ops as [|o ops IH]; intros d O; cbn [fold_left]; [exact O|]. apply IH, ok_step, O. Qed.
Lemma ok_run ops : okDb (vrun ops).
Proof. apply ok_fold. split; [reflexivity|exact I]. Qed.
Lemma settled_step d o : settled d -> calm o -> settled (vstep d o).
Proof.
  intros S C. destruct o as [f r| |q s v m|q x k p]; cbn [vstep calm] in *.
  - exact S.
  - left. reflexivity.
  - subst v. unfold encVacuum. destruct (isNil m); [apply settled_vacuum|]. destruct (negb (containsString _ m)); [exact S|]. destruct (negb q); [exact S|].
    destruct (modeName (vMode d)) as [c|e|]; try exact S. destruct (beq c m); [apply settled_vacuum|]. destruct s; [apply settled_vacuum|exact S].
  - unfold encIncremental. destruct (negb q); [exact S|]. destruct (modeName (vMode d)) as [c|e|]; try exact S. destruct (negb _); [exact S|]. destruct x; exact S.
Qed.
Lemma settled_run ops : untroubled ops -> settled (vrun ops).
Proof.
  intros (pre & post & -> & F). unfold vrun. rewrite fold_left_app. cbn [fold_left]. set (d := vstep _ VReopen). assert (S : settled d) by (left; reflexivity). clearbody d.
  revert d S. induction F as [|o ops C F IH]; intros d S; cbn [fold_left]; [exact S|]. apply IH, settled_step; assumption.
Qed.

(* ------------------------------------------------------------------ *)
(* Every database has one of the three modes, and Status tells it. *)
Theorem C203_status : forall ops, exists m, isMode m /\ shows (vrun ops) m (vFree (vrun ops)).
Proof.
  intros ops. unfold shows, encStatus. destruct (name_cases _ (ok_run ops)) as [[E _]|[[E _]|[E _]]]; rewrite E; eexists; (split; [|reflexivity]); unfold isMode; auto.
Qed.
(* A name that is no mode is refused, and nothing is changed. *)
Theorem C203_unknown : forall q s v m d, m <> [] -> ~ isMode m -> snd (encVacuum q s v m d) = d /\ fst (encVacuum q s v m d) = Err "encdb: unknown auto_vacuum mode".
Proof.
  intros q s v m d NE NM. unfold encVacuum. destruct m as [|x m]; [contradiction|]. cbn [isNil].
  destruct (containsString autoVacuumModes (x :: m)) eqn:K; [apply known in K; contradiction|]. cbn [negb]. split; reflexivity.
Qed.
(* Vacuum never loses data and always rebuilds if it succeeds. *)
Theorem C203_data : forall q s v m ops, let d := vrun ops in let (r, d') := encVacuum q s v m d in
  vRows d' = vRows d /\ (r = Ok tt -> vFree d' = 0) /\ (r <> Ok tt -> vFree d' = vFree d) /\ r <> Panic.
Proof.
  intros q s v m ops d. pose proof (ok_run ops) as O. fold d in O. unfold encVacuum. destruct (isNil m); [destruct v; repeat split; cbn; congruence|].
  destruct (negb (containsString _ m)); [repeat split; cbn; congruence|]. destruct (negb q); [repeat split; cbn; congruence|].
  destruct (name_cases d O) as [[E _]|[[E _]|[E _]]]; rewrite E; (destruct (beq _ m); [destruct v|destruct s; [destruct v|]]); repeat split; cbn; congruence.
Qed.
(* The full statement of C203 is [untroubled] left out; it is refuted below.
   After a Vacuum with a mode, Status tells this mode and no free pages; without a mode the mode stays. *)
Theorem C203_partial : forall ops q s v m d', untroubled ops -> encVacuum q s v m (vrun ops) = (Ok tt, d') ->
  (m <> [] -> isMode m /\ shows d' m 0) /\ (m = [] -> forall m0 f, shows (vrun ops) m0 f -> shows d' m0 0).
Proof.
  intros ops q s v m d' UT E. pose proof (ok_run ops) as O. pose proof (settled_run ops UT) as S. set (d := vrun ops) in *. clearbody d.
  assert (KEEP : forall d'', vacuumCmd d = d'' -> vMode d'' = vMode d).
  { intros d'' <-. cbn [vacuumCmd vMode]. destruct S as [-> | ->]; reflexivity. }
  unfold encVacuum in E. split.
  - intros NE. destruct m as [|x m]; [contradiction|]. cbn [isNil] in E. destruct (containsString autoVacuumModes (x :: m)) eqn:K; cbn [negb] in E; [|discriminate E].
    apply known in K. split; [exact K|]. destruct q; cbn [negb] in E; [|discriminate E]. destruct (name_no _ d K O) as [N1 N2]. unfold shows, encStatus. cbn [negb].
    destruct (modeName (vMode d)) as [cur|e|] eqn:MN; try discriminate E. destruct (beq cur (x :: m)) eqn:B.
    + destruct v; [|discriminate E]. assert (vacuumCmd d = d') as D by congruence. rewrite (KEEP _ D), MN. apply beq_spec in B. subst cur d'. reflexivity.
    + destruct s; [|discriminate E]. destruct v; [|discriminate E]. assert (vacuumCmd (pragmaSet (modeNo (x :: m)) d) = d') as <- by congruence.
      cbn [vacuumCmd pragmaSet vMode vNext vFree]. rewrite N1. reflexivity.
  - intros -> m0 f SH. cbn [isNil] in E. destruct v; [|discriminate E]. assert (vacuumCmd d = d') as D by congruence. unfold shows, encStatus in SH |- *. cbn [negb] in SH |- *.
    rewrite (KEEP _ D). destruct (modeName (vMode d)) as [cur|e|]; try discriminate SH. assert (cur = m0) as -> by congruence. subst d'. reflexivity.
Qed.
(* A VACUUM that failed is made good by opening the database again. *)
Theorem C203_reopened : forall ops, untroubled (ops ++ [VReopen]).
Proof. intros ops. exists ops, []. split; [reflexivity|constructor]. Qed.
(* Incremental: only in mode INCREMENTAL, which it keeps; it frees at most the given number of pages and no data. *)
Theorem C203_incremental : forall ops q x k pages, let d := vrun ops in let (r, d') := encIncremental q x k pages d in
  (r = Ok tt -> exists f, shows d (str "INCREMENTAL") f) /\ (r <> Ok tt -> d' = d) /\ r <> Panic /\
  (forall m f, shows d m f -> exists f', shows d' m f' /\ f' <= f /\ ((0 < pages)%Z -> (Z.of_N f - pages <= Z.of_N f')%Z)) /\ vRows d' = vRows d.
Proof.
  intros ops q x k pages d. pose proof (ok_run ops) as O. fold d in O. unfold encIncremental, shows, encStatus. cbn [negb]. destruct q; cbn [negb].
  2:{ split; [discriminate|]. split; [reflexivity|]. split; [discriminate|]. split; [|reflexivity]. intros m f H. exists f. split; [exact H|]. split; [|intros]; lia. }
  destruct (name_cases d O) as [[E F]|[[E F]|[E F]]]; rewrite E.
  1,2: split; [discriminate|]; split; [reflexivity|]; split; [discriminate|]; split; [|reflexivity]; intros m f H; exists f; rewrite E; split; [exact H|]; split; [|intros]; lia.
  rewrite beq_refl. cbn [negb]. destruct x.
  - split; [eauto|]. split; [intros X; contradiction X; reflexivity|]. split; [discriminate|]. split; [|reflexivity]. intros m f H.
    assert (str "INCREMENTAL" = m /\ vFree d = f) as [<- <-] by (split; congruence). cbn [incrCmd vMode vFree]. rewrite E. eexists. split; [reflexivity|]. split; [lia|].
    intros P. unfold incrLimit. replace (pages <=? 0)%Z with false by (symmetry; apply Z.leb_gt; lia). cbn [orb]. destruct (2 ^ 31 <=? pages)%Z eqn:B; [apply Z.leb_le in B|]; lia.
  - split; [discriminate|]. split; [reflexivity|]. split; [discriminate|]. split; [|reflexivity]. intros m f H. exists f. rewrite E. split; [exact H|]. split; [|intros]; lia.
Qed.
(* The statement of C203 fails after a VACUUM that failed: Vacuum for mode NONE then succeeds and the database has mode FULL. *)
Theorem C203_refuted : exists ops d', encVacuum true true true (str "NONE") (vrun ops) = (Ok tt, d') /\ ~ shows d' (str "NONE") 0 /\ shows d' (str "FULL") 0.
Proof. exists [VVacuum true true false (str "FULL")]. eexists. split; [vm_compute; reflexivity|]. split; [intros H; vm_compute in H; discriminate H|vm_compute; reflexivity]. Qed.
(* The command db vacuum of mutectrl (see C198_vacuum): it reports an error, the message database is in mode FULL all the same, and the
   key database keeps its mode and its free pages. *)
Theorem C203_command : forall mops kops q s kv e d', untroubled mops -> encVacuum q s true (str "FULL") (vrun mops) = (Ok tt, d') ->
  let (r, st) := ctrlVacuum vdb vdb (encVacuum q s true) kv e (vrun mops, vrun kops) in
  r <> Ok tt /\ shows (fst st) (str "FULL") 0 /\ snd st = vrun kops.
Proof.
  intros mops kops q s kv e d' UT E. destruct (C198_vacuum vdb vdb (encVacuum q s true) kv e (vrun mops, vrun kops)) as (A & B & D).
  destruct (ctrlVacuum vdb vdb (encVacuum q s true) kv e (vrun mops, vrun kops)) as [r st]. cbn [fst snd] in A, B, D |- *. rewrite E in B. cbn [snd] in B.
  split; [exact D|]. split; [|exact A]. rewrite B. apply (proj1 (C203_partial mops q s true (str "FULL") d' UT E)). discriminate.
Qed.

Example C203_ex : untroubled [VVacuum true true false (str "FULL"); VReopen; VVacuum true true true (str "INCREMENTAL"); VWrite 9 (str "data")] /\
  (exists d', encVacuum true true true (str "NONE") (vrun [VVacuum true true false (str "FULL"); VReopen; VVacuum true true true (str "INCREMENTAL"); VWrite 9 (str "data")]) = (Ok tt, d') /\ shows d' (str "NONE") 0) /\
  (exists d', encIncremental true true 5 3 (vrun [VReopen; VVacuum true true true (str "INCREMENTAL"); VWrite 9 (str "data")]) = (Ok tt, d') /\ shows d' (str "INCREMENTAL") 6) /\
  ~ isMode (str "none").
Proof.
  split; [exists [VVacuum true true false (str "FULL")], [VVacuum true true true (str "INCREMENTAL"); VWrite 9 (str "data")]; split; [reflexivity|]; repeat constructor|].
  split; [eexists; split; vm_compute; reflexivity|]. split; [eexists; split; vm_compute; reflexivity|]. intros [H|[H|H]]; vm_compute in H; discriminate H.
Qed.

Print Assumptions C203_status.
Print Assumptions C203_unknown.
Print Assumptions C203_data.
Print Assumptions C203_partial.
Print Assumptions C203_reopened.
Print Assumptions C203_incremental.
Print Assumptions C203_refuted.
Print Assumptions C203_command.
