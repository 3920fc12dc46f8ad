(* C171-C173: how mutecrypt and mutectrl end. *)
From Verif Require Import Base ShutdownModel.
Local Open Scope nat_scope.

Definition past (s : st) : Prop := match sMain s with MNew | MAdd => False | _ => True end.      (* the callback is registered *)
Definition received (s : st) : Prop := match sMain s with MClosing _ | MFlush | MExit => True | _ => False end.
Definition interrupted (s : st) : Prop := sPend s = true \/ match sHand s with HCall _ | HSend => True | _ => False end.
(* the steps of the handler and of the main goroutine *)
Definition own (w : who) : bool := match w with TakeSig | Hand | Main | JoinH => true | _ => false end.
Definition noSig (l : list who) : Prop := ~ In Sig l.
Definition opensFirst (l : list eact) : Prop := match l with AUse :: _ => False | _ => True end.

Lemma run_app d k l1 : forall l2 s s1, run d k l1 s = Some s1 -> run d k (l1 ++ l2) s = run d k l2 s1.
Proof. induction l1 as [|w l1 IH]; intros l2 s s1 H; cbn [app run] in *; [inversion H; reflexivity|]. destruct (step d k w s) as [s2|]; [apply IH, H|discriminate H]. Qed.
Lemma run_inv d k (I : st -> Prop) : (forall w s s', I s -> step d k w s = Some s' -> I s') -> forall l s s', I s -> run d k l s = Some s' -> I s'.
Proof.
  intros P. induction l as [|w l IH]; intros s s' H R; cbn [run] in R; [inversion R; subst; exact H|]. destruct (step d k w s) as [s1|] eqn:E; [|discriminate R].
  exact (IH s1 s' (P w s s1 H E) R).
Qed.
Lemma ends d k l (P : st -> bool) : match run d k l init with Some s => P s | None => false end = true -> exists s, run d k l init = Some s /\ P s = true.
Proof. intros H. destruct (run d k l init) as [s|]; [exists s; split; [reflexivity|exact H]|discriminate H]. Qed.
(* all cases of one step *)
Ltac cases H := repeat match type of H with
  | context [match ?x with _ => _ end] => is_var x; destruct x; cbn in H |- *; try discriminate H
  end.
Ltac stepCases H := match type of H with step ?d ?k ?w ?s = Some ?s' =>
  destruct s as [m h ca e er f nx cl pe go cr ki]; unfold step, final, stepClose, closeStep, finish, upd, setDB, setPend, setErr, receive, crash in H; cbn in *;
  destruct cr, ki; cbn in H; try discriminate H; destruct w; cbn in H; cases H; inversion H; subst; cbn in * end.

(* ------------------------------------------------------------------ *)
(* C171.  Ctrl+C ends the process. *)
Definition stuck (s : st) : Prop := sMain s = MAdd /\ sHand s = HSend /\ sEng s = ENone /\ sCrash s = false /\ sKilled s = false.
Lemma stuck_step d k w s s' : stuck s -> step d k w s = Some s' -> stuck s'.
Proof. intros (M & H & E & C & K) S. unfold stuck. stepCases S; try discriminate; auto. Qed.
Theorem C171_refuted : forall d k, exists l s, run d k l init = Some s /\ In Sig l /\ forall l' s', run d k l' s = Some s' -> final s' = false.
Proof.
  intros d k. exists [Main; Sig; TakeSig]. eexists. split; [reflexivity|]. split; [right; left; reflexivity|]. intros l' s' R.
  assert (I : stuck s') by (refine (run_inv d k stuck (stuck_step d k) l' _ s' _ R); repeat split). destruct I as (M & _ & _ & C & K).
  unfold final. rewrite M, C, K. reflexivity.
Qed.

Definition started (s : st) : Prop := (sMain s <> MNew -> sHand s <> HNone) /\ (past s -> sCalls s = true).
Lemma started_step d k w s s' : started s -> step d k w s = Some s' -> started s'.
Proof. intros I S. unfold started, past in *. stepCases S; intuition (try congruence; try discriminate). Qed.
Definition live (s : st) : Prop := past s /\ (interrupted s \/ received s) /\ started s.
Lemma live_step d k w s s' : live s -> step d k w s = Some s' -> live s'.
Proof.
  intros (P & J & I) S. split; [|split; [|exact (started_step _ _ _ _ _ I S)]].
  - clear J I. unfold past in *. stepCases S; auto.
  - clear I. unfold past, interrupted, received in *. stepCases S; intuition (try congruence; try discriminate).
Qed.
Definition mainMu (m : mpc) : nat := match m with MClosing CCheck => 4 | MClosing CClose => 3 | MClosing CNil => 2 | MFlush => 1 | MExit => 0 | MWait => 5 | _ => 6 end.
Definition handMu (h : hpc) : nat := match h with HSend => 0 | HCall CNil => 1 | HCall CClose => 2 | HCall CCheck => 3 | _ => 4 end.
(* how far main and the handler are from the end; a handler that goes on after main received something does not count *)
Definition mu (s : st) : nat := match sMain s with MWait | MStart => mainMu (sMain s) + handMu (sHand s) | m => mainMu m end.
Definition ahead (w : who) (s : st) : bool := match w with TakeSig | Hand => match sMain s with MWait | MStart => true | _ => false end | Main | JoinH => true | _ => false end.
Lemma mu_step d k w s s' : live s -> step d k w s = Some s' -> final s' = false -> mu s' + (if ahead w s then 1 else 0) <= mu s.
Proof.
  intros (P & J & I) S F. unfold past, interrupted, received, started, mu, ahead, final in *.
  stepCases S; cbn; try contradiction; try lia; intuition (try congruence; try discriminate; try lia).
Qed.
Lemma enabled d k s : live s -> final s = false -> exists w s', own w = true /\ ahead w s = true /\ step d k w s = Some s'.
Proof.
  intros (P & J & I) F. destruct s as [m h ca e er f nx cl pe go cr ki]. unfold past, interrupted, received, started, past, final in *. cbn in *.
  destruct cr, ki; try discriminate F. destruct I as [I1 I2].
  destruct m as [| | | |c| |]; try contradiction; try discriminate F.
  - exists Main. eexists. repeat split.
  - specialize (I1 ltac:(discriminate)). specialize (I2 Logic.I). destruct h as [| |c|]; [contradiction| | |].
    + assert (pe = true) as -> by (destruct J as [[J|J]|J]; [exact J|contradiction|contradiction]). exists TakeSig. eexists. repeat split.
    + exists Hand. unfold step, final, stepClose, closeStep. cbn. destruct c, f; eexists; repeat split.
    + exists JoinH. eexists. repeat split.
  - exists Main. unfold step, final, stepClose, closeStep. cbn. destruct c, f; eexists; repeat split.
  - exists Main. eexists. repeat split.
Qed.
(* the number of steps of main and of the handler (of the latter only until main received something) in a run *)
Fixpoint count (d : bool) (k : list eact) (l : list who) (s : st) : nat :=
  match l with [] => 0 | w :: l' => match step d k w s with Some s' => (if ahead w s then 1 else 0) + count d k l' s' | None => 0 end end.
Lemma count_mu d k : forall l s s', live s -> run d k l s = Some s' -> final s' = false -> mu s' + count d k l s <= mu s.
Proof.
  induction l as [|w l IH]; intros s s' L R F; cbn [run count] in *; [inversion R; subst; lia|]. destruct (step d k w s) as [s1|] eqn:E; [|discriminate R].
  assert (F1 : final s1 = false).
  { destruct (final s1) eqn:X; [|reflexivity]. destruct l as [|w' l]; cbn [run] in R; [inversion R; subst; congruence|]. unfold step in R. rewrite X in R. discriminate R. }
  assert (M := mu_step d k w s s1 L E F1). specialize (IH s1 s' (live_step _ _ _ _ _ L E) R F). lia.
Qed.
Lemma started_init d k l s : run d k l init = Some s -> started s.
Proof. intros R. refine (run_inv d k started (started_step d k) l init s _ R). split; [intros X; destruct (X eq_refl)|intros []]. Qed.
Lemma mu_max s : live s -> mu s <= 10.
Proof. intros _. unfold mu, mainMu, handMu. destruct (sMain s) as [| | | |[]| |]; destruct (sHand s) as [| |[]|]; lia. Qed.
(* Once the callback is registered and a signal arrived, the process has not ended only as long as main and the handler were
   given fewer than ten steps, and one of them can always go on, whatever the engine does. *)
Theorem C171_partial : forall d k l s, run d k l init = Some s -> past s -> interrupted s -> forall l' s', run d k l' s = Some s' -> final s' = false ->
  count d k l' s <= 10 /\ exists w s'', own w = true /\ ahead w s' = true /\ step d k w s' = Some s''.
Proof.
  intros d k l s R P J l' s' R' F. assert (L : live s) by (split; [exact P|split; [left; exact J|exact (started_init d k l s R)]]).
  assert (L' : live s') by exact (run_inv d k live (live_step d k) l' s s' L R'). split; [|exact (enabled d k s' L' F)].
  assert (C := count_mu d k l' s s' L R' F). assert (X := mu_max s L). lia.
Qed.
(* the same without the engine taking any step *)
Theorem C171_alone_partial : forall d k l s, run d k l init = Some s -> past s -> interrupted s -> exists l' s', forallb own l' = true /\ run d k l' s = Some s' /\ final s' = true.
Proof.
  intros d k l s R P J. assert (L : live s) by (split; [exact P|split; [left; exact J|exact (started_init d k l s R)]]). clear R P J.
  remember (mu s) as n eqn:N. revert s L N. induction n as [n IH] using (well_founded_induction Wf_nat.lt_wf). intros s L N. destruct (final s) eqn:F.
  - exists [], s. repeat split. exact F.
  - destruct (enabled d k s L F) as (w & s1 & O & A & S). destruct (final s1) eqn:F1.
    + exists [w], s1. cbn [forallb run]. rewrite O, S. repeat split. exact F1.
    + assert (M := mu_step d k w s s1 L S F1). rewrite A in M. destruct (IH (mu s1) ltac:(lia) s1 (live_step _ _ _ _ _ L S) eq_refl) as (l' & s' & O' & R' & F').
      exists (w :: l'), s'. cbn [forallb run]. rewrite O, S. repeat split; assumption.
Qed.
Example C171_ex : exists s, run true [AOpen; AUse] [Main; AddH; Main; Eng; Sig] init = Some s /\ past s /\ interrupted s /\ final s = false.
Proof.
  exists (mkSt MWait HIdle true (ERun [AUse]) None (Some 0) 1 [] true None false false). split; [vm_compute; reflexivity|].
  split; [exact I|]. split; [left; reflexivity|reflexivity].
Qed.

(* ------------------------------------------------------------------ *)
(* C172.  Ctrl+C does not make the process crash. *)
Theorem C172_use_refuted : forall d, exists l s, run d [AOpen; AUse] l init = Some s /\ sCrash s = true.
Proof. intros d. exists [Main; AddH; Main; Eng; Sig; TakeSig; Hand; Hand; Hand; Eng]. apply ends. destruct d; vm_compute; reflexivity. Qed.
(* both engines: two goroutines in Close at the same time, after the engine has done all its work *)
Theorem C172_close_refuted : forall d, exists l s, run d [AOpen] l init = Some s /\ sCrash s = true.
Proof.
  intros [].
  - exists [Main; AddH; Main; Eng; Eng; Eng; Sig; TakeSig; Hand; Hand; Hand; Eng]. apply ends. vm_compute. reflexivity.
  - exists [Main; AddH; Main; Eng; Eng; JoinE; Main; Sig; TakeSig; Hand; Hand; Hand; Main]. apply ends. vm_compute. reflexivity.
Qed.
(* without a signal the goroutines follow one another *)
Definition rest (e : epc) : Prop := match e with ENone | EDone => True | _ => False end.
Definition fieldOk (d : bool) (s : st) : Prop :=
  match sEng s with
  | ENone => sField s = None /\ sNext s = 0
  | ERun l => opensFirst l \/ sField s <> None
  | EClosing CCheck => d = true
  | EClosing CClose => d = true /\ sField s <> None
  | EClosing CNil => d = true /\ exists n, sField s = Some n /\ In n (sClosed s)
  | ESend => d = true -> sField s = None
  | EDone => True
  end.
Definition quiet (d : bool) (s : st) : Prop :=
  sCrash s = false /\ sKilled s = false /\ sPend s = false /\ match sHand s with HNone => sMain s = MNew | HIdle => True | _ => False end /\
  match sMain s with
  | MNew | MAdd | MStart => sEng s = ENone
  | MWait => True
  | MClosing CCheck => sEng s = EDone
  | MClosing CClose => sEng s = EDone /\ sField s <> None
  | MClosing CNil => sEng s = EDone /\ exists n, sField s = Some n /\ In n (sClosed s)
  | MFlush | MExit => sEng s = EDone /\ sField s = None
  end /\ (sMain s = MWait -> sEng s <> ENone) /\ fieldOk d s /\ forall h, h < sNext s -> sField s = Some h \/ In h (sClosed s).
Lemma quiet_step d k w s s' : opensFirst k -> quiet d s -> w <> Sig -> step d k w s = Some s' -> quiet d s'.
Proof.
  intros K (Q1 & Q2 & Q3 & Q4 & Q5 & Q6 & Q7 & Q8) N S. unfold quiet, fieldOk in *.
  assert (X : forall n (f : option nat) (cl : list nat), f = None -> (forall h, h < n -> f = Some h \/ In h cl) -> forall h, h < Datatypes.S n -> Some n = Some h \/ In h cl).
  { intros n f cl -> H h L. destruct (Nat.eq_dec h n) as [->|E]; [left; reflexivity|]. destruct (H h ltac:(lia)) as [Y|Y]; [discriminate Y|right; exact Y]. }
  destruct s as [m h ca e er f nx cl pe go cr ki]. cbn in *. subst cr ki pe.
  assert (F : m <> MExit) by (intros ->; discriminate S). unfold step in S. replace (final _) with false in S by (destruct m; try reflexivity; contradiction).
  assert (HH : h = HIdle \/ h = HNone /\ m = MNew) by (destruct h; intuition). clear Q4.
  destruct w as [| | | | |er'| | |]; [contradiction|..]; cbn in S.
  - destruct HH as [->|[-> ->]]; discriminate S.
  - destruct m; try discriminate S. destruct HH as [->|[_ Y]]; [|discriminate Y]. inversion S; subst; cbn. cbn in Q7. intuition (try discriminate).
  - destruct HH as [->|[-> ->]]; discriminate S.
  - assert (M : e <> ENone -> e <> EDone -> m = MWait) by (intros; destruct m as [| | | |[]| |]; intuition congruence).
    destruct e as [|[|[|] l]|c| |]; try discriminate S; specialize (M ltac:(discriminate) ltac:(discriminate)); subst m; destruct HH as [->|[_ Y]]; try discriminate Y; clear F Q5 Q6.
    + unfold finish, upd in S. cbn in S. destruct d; inversion S; subst; cbn; intuition (try discriminate).
    + destruct f as [n|]; inversion S; subst; cbn.
      * intuition (try discriminate).
      * intuition (try discriminate). apply (X nx None cl eq_refl); assumption.
    + destruct f as [n|]; [|cbn in Q7; exfalso; intuition congruence]. inversion S; subst; cbn. intuition (try discriminate).
    + unfold stepClose, closeStep, upd, setDB, crash in S. cbn in S. destruct c.
      * destruct f as [n|]; inversion S; subst; cbn; intuition (try discriminate).
      * destruct f as [n|]; [|exfalso; intuition congruence]. inversion S; subst; cbn. intuition (try discriminate); try (exists n; auto).
        all: try (match goal with Y : forall h, h < _ -> _, L : ?h < _ |- _ => destruct (Y h L) as [Z|Z]; auto end).
      * destruct Q7 as (D & n & -> & I). inversion S; subst; cbn. intuition (try discriminate).
        all: try (match goal with Y : forall h, h < _ -> _, L : ?h < _ |- _ => destruct (Y h L) as [Z|Z]; [inversion Z; subst; auto|auto] end).
  - destruct e as [|l|c| |]; try discriminate S. assert (m = MWait) as -> by (destruct m as [| | | |[]| |]; intuition congruence).
    destruct HH as [->|[_ Y]]; [|discriminate Y]. unfold finish, setErr, upd in S. cbn in S. destruct d; inversion S; subst; cbn; intuition (try discriminate).
    (* ctrlengine: nothing is known of the field *)
  - destruct m as [| | | |c| |]; try discriminate S.
    + inversion S; subst; cbn. intuition (try discriminate).
    + destruct HH as [->|[_ Y]]; [|discriminate Y]. inversion S; subst; cbn. intuition (try discriminate).
    + destruct HH as [->|[_ Y]]; [|discriminate Y]. unfold stepClose, closeStep, upd, setDB, crash in S. cbn in S. destruct c.
      * subst e. destruct f as [n|]; inversion S; subst; cbn; intuition (try discriminate).
      * destruct Q5 as [-> Q5]. destruct f as [n|]; [|exfalso; intuition congruence]. inversion S; subst; cbn. intuition (try discriminate); try (exists n; auto).
        all: try (match goal with Y : forall h, h < _ -> _, L : ?h < _ |- _ => destruct (Y h L) as [Z|Z]; auto end).
      * destruct Q5 as (-> & n & -> & I). inversion S; subst; cbn. intuition (try discriminate).
        all: try (match goal with Y : forall h, h < _ -> _, L : ?h < _ |- _ => destruct (Y h L) as [Z|Z]; [inversion Z; subst; auto|auto] end).
    + destruct HH as [->|[_ Y]]; [|discriminate Y]. inversion S; subst; cbn. intuition (try discriminate).
  - destruct HH as [->|[-> ->]]; [destruct m|]; discriminate S.
  - destruct m; try discriminate S. destruct e; try discriminate S. destruct HH as [->|[_ Y]]; [|discriminate Y]. inversion S; subst; cbn. intuition (try discriminate).
Qed.
Lemma quiet_run d k : opensFirst k -> forall l s s', ~ In Sig l -> quiet d s -> run d k l s = Some s' -> quiet d s'.
Proof.
  intros K. induction l as [|w l IH]; intros s s' N Q R; cbn [run] in R; [inversion R; subst; exact Q|]. destruct (step d k w s) as [s1|] eqn:E; [|discriminate R].
  apply (IH s1 s'); [intros I; apply N; right; exact I| |exact R]. apply (quiet_step d k w s s1 K Q); [|exact E]. intros ->. apply N. left. reflexivity.
Qed.
Lemma quiet_init d : quiet d init.
Proof. unfold quiet, fieldOk, init. cbn. intuition (try discriminate). lia. Qed.
Theorem C172_partial : forall d k l s, opensFirst k -> ~ In Sig l -> run d k l init = Some s -> sCrash s = false.
Proof. intros d k l s K N R. apply (quiet_run d k K l init s N (quiet_init d) R). Qed.
Example C172_ex : opensFirst [AOpen; AUse; AOpen; AUse] /\ exists s, run true [AOpen; AUse] [Main; AddH; Main; Eng; Eng; Eng; Eng; Eng; Eng; JoinE; Main; Main] init = Some s /\
  (match sMain s with MExit => true | _ => false end && negb (sCrash s))%bool = true.
Proof. split; [exact I|]. apply ends. vm_compute. reflexivity. Qed.

(* ------------------------------------------------------------------ *)
(* C173.  The status of the process is the one of its engine, and the database is closed at the end. *)
Definition told (l : list who) (s : st) : Prop :=
  (forall e, sErr s = Some e -> In (EngFail e) l) /\
  match sGot s with
  | Some (Some e) => In (EngFail e) l /\ received s
  | Some None => (sEng s = EDone /\ sErr s = None \/ In Sig l) /\ received s
  | None => ~ received s
  end /\ (sPend s = true \/ match sHand s with HCall _ | HSend => True | _ => False end -> In Sig l).
Lemma told_step d k w l s s' : told l s -> step d k w s = Some s' -> told (l ++ [w]) s'.
Proof.
  intros (T1 & T2 & T3) S.
  assert (A : forall x, In x l -> In x (l ++ [w])) by (intros x; intros; apply in_or_app; left; assumption).
  assert (B : In w (l ++ [w])) by (apply in_or_app; right; left; reflexivity).
  assert (G : match sGot s with
              | Some (Some e) => In (EngFail e) (l ++ [w]) /\ received s | Some None => (sEng s = EDone /\ sErr s = None \/ In Sig (l ++ [w])) /\ received s | None => ~ received s end).
  { destruct (sGot s) as [[e|]|]; [|..|exact T2]; destruct T2 as [T2 R]; (split; [|exact R]); [auto|]. destruct T2; auto. }
  unfold told. stepCases S; (split; [solve [intros zz E0; first [inversion E0; subst; exact B|apply A, T1, E0]]|]).
  all: split; [|solve [intros Y; first [exact B|apply A, T3; intuition congruence|exfalso; intuition congruence]]].
  all: unfold received in *; cbn in *.
  all: try solve [exact G | destruct go as [[?|]|]; tauto | destruct go as [[?|]|]; intuition congruence].
  all: try solve [split; [right; apply A, T3; auto|exact I]].
  all: destruct er as [er|]; (split; [|exact I]); [apply A, T1; reflexivity|left; auto].
Qed.
Lemma told_run d k : forall l l0 s s', told l0 s -> run d k l s = Some s' -> told (l0 ++ l) s'.
Proof.
  induction l as [|w l IH]; intros l0 s s' T R; cbn [run] in R; [inversion R; subst; rewrite app_nil_r; exact T|]. destruct (step d k w s) as [s1|] eqn:E; [|discriminate R].
  change (w :: l) with ([w] ++ l). rewrite app_assoc. exact (IH (l0 ++ [w]) s1 s' (told_step d k w l0 s s1 T E) R).
Qed.
Theorem C173_status : forall d k l s, run d k l init = Some s -> sMain s = MExit ->
  match sGot s with Some (Some e) => In (EngFail e) l | Some None => sEng s = EDone /\ sErr s = None \/ In Sig l | None => False end.
Proof.
  intros d k l s R M. assert (T : told l s).
  { apply (told_run d k l [] init s); [|exact R]. split; [discriminate|]. split; [exact (fun x => x)|]. intros [Y|Y]; [discriminate Y|destruct Y]. }
  destruct T as (_ & T & _). destruct (sGot s) as [[e|]|]; [apply T|apply T|]. apply T. unfold received. rewrite M. exact I.
Qed.
Theorem C173_closed_partial : forall d k l s, opensFirst k -> ~ In Sig l -> run d k l init = Some s -> sMain s = MExit ->
  sField s = None /\ forall h, h < sNext s -> In h (sClosed s).
Proof.
  intros d k l s K N R M. destruct (quiet_run d k K l init s N (quiet_init d) R) as (_ & _ & _ & _ & Q & _ & _ & H). rewrite M in Q.
  split; [apply Q|]. intros h L. destruct (H h L) as [Y|Y]; [|exact Y]. destruct Q as [_ Q]. congruence.
Qed.
(* a database opened while the process ends is left open *)
Theorem C173_open_refuted : forall d, exists l s, run d [AOpen; AUse] l init = Some s /\
  (match sMain s, sField s with MExit, Some h => negb (existsb (Nat.eqb h) (sClosed s)) | _, _ => false end) = true.
Proof. intros d. exists [Main; AddH; Main; Sig; TakeSig; Hand; JoinH; Main; Eng; Main]. apply ends. destruct d; vm_compute; reflexivity. Qed.
Example C173_ex : exists s, run false [AOpen; AUse] [Main; AddH; Main; Eng; EngFail [1%N]; JoinE; Main; Main; Main; Main] init = Some s /\
  (match sMain s, sGot s, sField s with MExit, Some (Some [1%N]), None => true | _, _, _ => false end) = true.
Proof. apply ends. vm_compute. reflexivity. Qed.

Print Assumptions C171_refuted.
Print Assumptions C171_partial.
Print Assumptions C171_alone_partial.
Print Assumptions C172_use_refuted.
Print Assumptions C172_close_refuted.
Print Assumptions C172_partial.
Print Assumptions C173_status.
Print Assumptions C173_closed_partial.
Print Assumptions C173_open_refuted.
