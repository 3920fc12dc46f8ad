(* C207: the completion offers the commands that begin with what was typed, each in the words that run it. *)
From Verif Require Import Base ConfigModel CompleteModel.
Local Open Scope N_scope.

(* ------------------------------------------------------------------ *)
(* The specification: the words that run a command, in the tree of commands. *)
Inductive runs : list command -> list (list N) -> Prop :=
  | runs_here l n : In (Cmd n None) l -> runs l [n]
  | runs_below l n subs w : In (Cmd n (Some subs)) l -> runs subs w -> runs l (n :: w).
(* no command is more than one level below another *)
Definition twoLevels (l : list command) : Prop := forall w, runs l w -> (length w <= 2)%nat.
(* words with blanks between them *)
Fixpoint spaced (w : list (list N)) : list N := match w with [] => [] | [x] => x | x :: r => x ++ 32 :: spaced r end.
(* a name: not empty, no blanks *)
Definition blank (c : N) : Prop := 9 <= c <= 13 \/ c = 32.
Definition proper (n : list N) : Prop := n <> [] /\ Forall (fun c => ~ blank c) n.

(* ------------------------------------------------------------------ *)
Lemma hasPrefix_spec p : forall s, hasPrefix s p = true <-> exists r, s = p ++ r.
Proof.
  induction p as [|x p IH]; intros s; [split; [intros _; exists s; reflexivity|destruct s; reflexivity]|]. destruct s as [|y s]; cbn [hasPrefix].
  - split; [discriminate|intros [r H]; discriminate H].
  - rewrite Bool.andb_true_iff, N.eqb_eq, IH. split; [intros [-> [r ->]]; exists r; reflexivity|intros [r H]; injection H as -> ->; split; [reflexivity|exists r; reflexivity]].
Qed.
(* what is in the list for the command of these words: its last two words *)
Fixpoint shown (pre : bytes) (w : list bytes) : bytes := match w with [] => pre | [n] => pre ++ n | n :: r => shown (n ++ [32]) r end.
Lemma shown_cons pre n w : w <> [] -> shown pre (n :: w) = shown (n ++ [32]) w.
Proof. destruct w; [intros H; contradiction H; reflexivity|reflexivity]. Qed.
Lemma runs_nonempty l w : runs l w -> w <> [].
Proof. destruct 1; discriminate. Qed.
Lemma listed l w : runs l w -> forall pre, In (shown pre w) (buildCmdList l pre).
Proof.
  induction 1 as [l n H|l n subs w H R IH]; intros pre; apply in_flat_map.
  - exists (Cmd n None). split; [exact H|]. left. reflexivity.
  - exists (Cmd n (Some subs)). split; [exact H|]. rewrite shown_cons by (eapply runs_nonempty; exact R). exact (IH (n ++ [32])).
Qed.
Lemma only c : forall pre x, In x (cmdOf pre c) -> exists w, runs [c] w /\ x = shown pre w.
Proof.
  revert c. fix IH 1. intros [n [l|]] pre x H.
  - cbn [cmdOf] in H. assert (K : exists w, runs l w /\ x = shown (n ++ [32]) w).
    { induction l as [|c l IHl]; [destruct H|]. cbn [flat_map] in H. apply in_app_or in H as [H|H].
      - destruct (IH c (n ++ [32]) x H) as (w & R & E). exists w. split; [|exact E]. inversion R as [? m I|? m s v I Rv]; subst; destruct I as [I|[]]; subst c; [apply runs_here; left; reflexivity|eapply runs_below; [left; reflexivity|exact Rv]].
      - destruct (IHl H) as (w & R & E). exists w. split; [|exact E]. inversion R as [? m I|? m s v I Rv]; subst; [apply runs_here; right; exact I|eapply runs_below; [right; exact I|exact Rv]]. }
    destruct K as (w & R & E). exists (n :: w). split; [eapply runs_below; [left; reflexivity|exact R]|]. rewrite shown_cons by (eapply runs_nonempty; exact R). exact E.
  - destruct H as [<-|[]]. exists [n]. split; [apply runs_here; left; reflexivity|reflexivity].
Qed.
Lemma list_spec l x : In x (buildCmdList l []) <-> exists w, runs l w /\ x = shown [] w.
Proof.
  split; [|intros (w & R & ->); apply listed, R]. intros H. apply in_flat_map in H as (c & I & H). destruct (only c [] x H) as (w & R & E). exists w. split; [|exact E].
  inversion R as [? m J|? m s v J Rv]; subst; destruct J as [J|[]]; subst c; [apply runs_here; exact I|eapply runs_below; [exact I|exact Rv]].
Qed.

(* ------------------------------------------------------------------ *)
(* Of a command the last two words are offered, if they begin with what was typed; nothing else is offered. *)
Theorem C207_offered : forall l line x, In x (complete l line) <->
  (exists r, x = line ++ r) /\ exists w, runs l w /\ (w = [x] \/ exists v a b, w = v ++ [a; b] /\ x = a ++ 32 :: b).
Proof.
  assert (S : forall w pre, (2 <= length w)%nat -> exists v a b, w = v ++ [a; b] /\ shown pre w = a ++ 32 :: b).
  { induction w as [|a [|b [|d w]] IH]; intros pre L; cbn [length] in L; try lia.
    - exists [], a, b. split; [reflexivity|]. cbn [shown]. rewrite <- app_assoc. reflexivity.
    - destruct (IH (a ++ [32])) as (v & y & z & E & F); [cbn [length]; lia|]. exists (a :: v), y, z. split; [rewrite E; reflexivity|exact F]. }
  intros l line x. unfold complete. rewrite filter_In, hasPrefix_spec, list_spec. split.
  - intros ((w & R & E) & P). split; [exact P|]. exists w. split; [exact R|]. destruct w as [|a [|b w]]; [exfalso; eapply runs_nonempty; [exact R|reflexivity]|left; subst x; reflexivity|].
    right. destruct (S (a :: b :: w) []) as (v & y & z & F & G); [cbn [length]; lia|]. exists v, y, z. split; [exact F|]. rewrite E. exact G.
  - intros (P & w & R & D). split; [|exact P]. exists w. split; [exact R|]. destruct D as [->|(v & a & b & -> & ->)]; [reflexivity|].
    destruct (S (v ++ [a; b]) []) as (v' & y & z & F & G); [rewrite app_length; cbn [length]; lia|]. rewrite G. change [a; b] with ([a] ++ [b]) in F. change [y; z] with ([y] ++ [z]) in F. rewrite !app_assoc in F.
    apply app_inj_tail in F as [F ->]. apply app_inj_tail in F as [_ ->]. reflexivity.
Qed.
(* With two levels: exactly the commands that begin with what was typed, in the words that run them.  The full statement of C207 is: any
   number of levels.  It is refuted below. *)
Theorem C207_partial : forall l line x, twoLevels l -> (In x (complete l line) <-> exists w r, runs l w /\ x = spaced w /\ x = line ++ r).
Proof.
  intros l line x T. rewrite C207_offered. split.
  - intros ((r & P) & w & R & D). exists w, r. split; [exact R|]. split; [|exact P]. destruct D as [->|(v & a & b & -> & ->)]; [reflexivity|].
    specialize (T _ R). rewrite app_length in T. cbn [length] in T. destruct v; [reflexivity|cbn [length] in T; lia].
  - intros (w & r & R & E & P). split; [exists r; exact P|]. exists w. split; [exact R|]. specialize (T _ R). destruct w as [|a [|b [|d w]]]; cbn [length] in T; try lia.
    + exfalso. eapply runs_nonempty; [exact R|reflexivity].
    + left. subst x. reflexivity.
    + right. exists [], a, b. split; [reflexivity|exact E].
Qed.

(* A line taken from the completion runs the command that was offered. *)
Lemma fields_word n : Forall (fun c => ~ blank c) n -> forall r cur, fieldsF (n ++ r) cur = fieldsF r (cur ++ n).
Proof.
  induction 1 as [|c n H F IH]; intros r cur; [rewrite app_nil_r; reflexivity|]. cbn [app fieldsF]. destruct (space c) eqn:S; [exfalso; apply H; unfold space in S; unfold blank; apply Bool.orb_true_iff in S as [S|S]; [apply N.eqb_eq in S; right; exact S|apply Bool.andb_true_iff in S as [A B]; apply N.leb_le in A, B; left; split; assumption]|].
  rewrite IH, <- app_assoc. reflexivity.
Qed.
Lemma line_words w : Forall proper w -> lineArgs (spaced w) = w.
Proof.
  unfold lineArgs, fields. induction 1 as [|n w [NE P] F IH]; [reflexivity|]. destruct w as [|m w].
  - cbn [spaced]. rewrite <- (app_nil_r n) at 1. rewrite (fields_word n P). cbn [app fieldsF]. destruct n; [contradiction NE; reflexivity|reflexivity].
  - change (spaced (n :: m :: w)) with (n ++ 32 :: spaced (m :: w)). rewrite (fields_word n P). cbn [app]. cbn [fieldsF]. change (space 32) with true. cbv iota.
    destruct n as [|c n]; [contradiction NE; reflexivity|]. rewrite IH. reflexivity.
Qed.
Theorem C207_run_partial : forall l line x, twoLevels l -> (forall w, runs l w -> Forall proper w) -> In x (complete l line) -> runs l (lineArgs x).
Proof.
  intros l line x T P H. apply (C207_partial l line x T) in H as (w & r & R & -> & _). rewrite line_words by (apply P, R). exact R.
Qed.
(* Whatever beginning of a command is typed, the command is offered; for the empty line all are. *)
Theorem C207_all_partial : forall l w line r, twoLevels l -> runs l w -> spaced w = line ++ r -> In (spaced w) (complete l line).
Proof. intros l w line r T R E. apply (C207_partial l line _ T). exists w, r. auto. Qed.
(* The statement of C207 fails for commands on a third level: the first word is lost, and the line offered runs nothing.  (mutectrl has two
   levels, see the example.) *)
Theorem C207_refuted : exists l x, In x (complete l []) /\ ~ runs l (lineArgs x) /\ exists w, runs l w /\ ~ In (spaced w) (complete l []).
Proof.
  exists [Cmd (str "a") (Some [Cmd (str "b") (Some [Cmd (str "c") None])])], (str "b c"). split; [vm_compute; auto|]. split.
  - change (lineArgs (str "b c")) with [str "b"; str "c"]. intros R. inversion R as [|? n subs w I RW]; subst. destruct I as [I|[]]. discriminate I.
  - exists [str "a"; str "b"; str "c"]. split; [|vm_compute; intros [H|[]]; discriminate H]. eapply runs_below; [left; reflexivity|]. eapply runs_below; [left; reflexivity|]. apply runs_here. left. reflexivity.
Qed.

(* some of the commands of mutectrl (ctrlengine/ctrlengine.go:520-1350) *)
Definition exCmds : list command :=
  [Cmd (str "db") (Some [Cmd (str "create") None; Cmd (str "status") None; Cmd (str "vacuum") None]);
   Cmd (str "msg") (Some [Cmd (str "send") None; Cmd (str "fetch") None]); Cmd (str "quit") None].
Example C207_ex : twoLevels exCmds /\ (forall w, runs exCmds w -> Forall proper w) /\ complete exCmds (str "msg ") = [str "msg send"; str "msg fetch"] /\
  complete exCmds (str "q") = [str "quit"] /\ runs exCmds [str "msg"; str "fetch"].
Proof.
  assert (A : forall w, runs exCmds w -> In w [[str "db"; str "create"]; [str "db"; str "status"]; [str "db"; str "vacuum"]; [str "msg"; str "send"]; [str "msg"; str "fetch"]; [str "quit"]]).
  { intros w R. inversion R as [? n I|? n subs v I RV]; subst; cbn [In exCmds] in I.
    - destruct I as [I|[I|[I|[]]]]; try discriminate I. injection I as <-. cbn [In]. tauto.
    - destruct I as [I|[I|[I|[]]]]; try discriminate I; injection I as <- <-; inversion RV as [? m J|? m s u J _]; subst; cbn [In] in J; repeat destruct J as [J|J]; try discriminate J; try contradiction; injection J as <-; cbn [In]; tauto. }
  split; [intros w R; apply A in R; cbn [In] in R; repeat destruct R as [<-|R]; cbn [length]; try lia; destruct R|]. split.
  - intros w R. apply A in R. cbn [In] in R. repeat destruct R as [<-|R]; try contradiction; repeat (constructor; [split; [discriminate|]; repeat (constructor; [unfold blank; vm_compute; intuition discriminate|]); constructor|]); constructor.
  - split; [vm_compute; reflexivity|]. split; [vm_compute; reflexivity|]. eapply runs_below; [right; left; reflexivity|]. apply runs_here. right. left. reflexivity.
Qed.

Print Assumptions C207_offered.
Print Assumptions C207_partial.
Print Assumptions C207_run_partial.
Print Assumptions C207_all_partial.
Print Assumptions C207_refuted.
