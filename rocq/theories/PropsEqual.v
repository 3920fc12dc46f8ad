(* C200: StateEqual tells whether two session states are the same. *)
From Verif Require Import Base StoreModel EqualModel.
Local Open Scope N_scope.

(* ------------------------------------------------------------------ *)
(* The specification: the contents of a state, with the keys instead of the places where they are; equality of contents. *)
Definition deref (m : memory) (p : ptr) : option keyEntry := match p with Some x => Some (mKey m x) | None => None end.
Definition contents (m : memory) (x : N) : N * N * N * (keyEntry * keyEntry) * (option keyEntry * option keyEntry) * (list N * bool) :=
  let s := mState m x in (gSess s, gMsg s, gMax s, (gTemp s, gPub s), (deref m (gNext s), deref m (gSeen s)), (gNym s, gInit s)).
Definition oneNil (a b : ptr) : Prop := (a = None /\ b <> None) \/ (a <> None /\ b = None).

(* ---- proofs ---- *)
Lemma keyEq_spec a b : keyEq a b = true <-> a = b.
Proof.
  unfold keyEq. destruct a as [a1 a2 a3 a4], b as [b1 b2 b3 b4]. cbn [keSuite keFunc keHash kePub].
  destruct (beq a1 b1) eqn:E1; cbn [negb].
  2: { split; [discriminate|]. intros H. apply (f_equal keSuite) in H. cbn in H. apply beq_spec in H. congruence. }
  destruct (beq a2 b2) eqn:E2; cbn [negb].
  2: { split; [discriminate|]. intros H. apply (f_equal keFunc) in H. cbn in H. apply beq_spec in H. congruence. }
  destruct (beq a3 b3) eqn:E3; cbn [negb].
  2: { split; [discriminate|]. intros H. apply (f_equal keHash) in H. cbn in H. apply beq_spec in H. congruence. }
  destruct (beq a4 b4) eqn:E4; cbn [negb].
  2: { split; [discriminate|]. intros H. apply (f_equal kePub) in H. cbn in H. apply beq_spec in H. congruence. }
  apply beq_spec in E1, E2, E3, E4. subst. split; reflexivity.
Qed.
Lemma ptrEq_spec m a b : match KeyEntryEqual m a b with
  | Ok r => ~ oneNil a b /\ (r = true <-> deref m a = deref m b)
  | Err _ => False
  | Panic => oneNil a b
  end.
Proof.
  unfold KeyEntryEqual, oneNil. destruct a as [x|], b as [y|]; cbn [deref].
  - destruct (N.eqb_spec x y) as [->|D].
    + split; [intros [[H _]|[_ H]]; discriminate H|]. split; reflexivity.
    + split; [intros [[H _]|[_ H]]; discriminate H|]. rewrite keyEq_spec. split; [intros ->; reflexivity|congruence].
  - right. split; [discriminate|reflexivity].
  - left. split; [reflexivity|discriminate].
  - split; [|split; reflexivity]. intros [[_ H]|[H _]]; apply H; reflexivity.
Qed.

(* ------------------------------------------------------------------ *)
(* C200.  If StateEqual answers, it says true exactly for states with the same contents, wherever the keys are in memory. *)
Theorem C200_answer : forall m x y r, StateEqual m (Some x) (Some y) = Ok r -> (r = true <-> contents m x = contents m y).
Proof.
  intros m x y r. unfold StateEqual. destruct (N.eqb_spec x y) as [->|D].
  { intros H. apply (f_equal (fun z => match z with Ok b => b | _ => r end)) in H. cbn in H. subst r. split; reflexivity. }
  unfold contents. cbv zeta. generalize (mState m x) (mState m y). intros s t.
  assert (R : forall b, Ok b = Ok r :> res bool -> b = r) by (intros b H; congruence).
  destruct (N.eqb_spec (gSess s) (gSess t)) as [E1|E1]; cbn [negb]; [|intros H; apply R in H; subst r; split; [discriminate|intros H; congruence]].
  destruct (N.eqb_spec (gMsg s) (gMsg t)) as [E2|E2]; cbn [negb]; [|intros H; apply R in H; subst r; split; [discriminate|intros H; congruence]].
  destruct (N.eqb_spec (gMax s) (gMax t)) as [E3|E3]; cbn [negb]; [|intros H; apply R in H; subst r; split; [discriminate|intros H; congruence]].
  destruct (keyEq (gTemp s) (gTemp t)) eqn:E4; cbn [negb].
  2: { intros H. apply R in H. subst r. split; [discriminate|]. intros H. assert (X : gTemp s = gTemp t) by congruence. apply keyEq_spec in X. congruence. }
  destruct (keyEq (gPub s) (gPub t)) eqn:E5; cbn [negb].
  2: { intros H. apply R in H. subst r. split; [discriminate|]. intros H. assert (X : gPub s = gPub t) by congruence. apply keyEq_spec in X. congruence. }
  apply keyEq_spec in E4, E5.
  assert (P1 := ptrEq_spec m (gNext s) (gNext t)). destruct (KeyEntryEqual m (gNext s) (gNext t)) as [e1| |]; [|destruct P1|discriminate].
  destruct P1 as [_ P1]. cbn [rbind]. destruct e1; cbn [negb].
  2: { intros H. apply R in H. subst r. split; [discriminate|]. intros H. apply P1. congruence. }
  assert (P2 := ptrEq_spec m (gSeen s) (gSeen t)). destruct (KeyEntryEqual m (gSeen s) (gSeen t)) as [e2| |]; [|destruct P2|discriminate].
  destruct P2 as [_ P2]. cbn [rbind]. destruct e2; cbn [negb].
  2: { intros H. apply R in H. subst r. split; [discriminate|]. intros H. apply P2. congruence. }
  destruct (beq (gNym s) (gNym t)) eqn:E6; cbn [negb].
  2: { intros H. apply R in H. subst r. split; [discriminate|]. intros H. assert (X : gNym s = gNym t) by congruence. apply beq_spec in X. congruence. }
  apply beq_spec in E6.
  destruct (Bool.eqb (gInit s) (gInit t)) eqn:E7; cbn [negb].
  2: { intros H. apply R in H. subst r. split; [discriminate|]. intros H. assert (X : gInit s = gInit t) by congruence. rewrite X, Bool.eqb_reflx in E7. discriminate E7. }
  apply Bool.eqb_prop in E7. intros H. apply R in H. subst r. split; [|reflexivity]. intros _.
  rewrite E1, E2, E3, E4, E5, E6, E7, (proj1 P1 eq_refl), (proj1 P2 eq_refl). reflexivity.
Qed.
(* it answers if both states have, or both lack, each of the two keys for the next session *)
Theorem C200_partial : forall m x y, ~ oneNil (gNext (mState m x)) (gNext (mState m y)) -> ~ oneNil (gSeen (mState m x)) (gSeen (mState m y)) ->
  exists r, StateEqual m (Some x) (Some y) = Ok r /\ (r = true <-> contents m x = contents m y).
Proof.
  intros m x y A B. enough (G : exists r, StateEqual m (Some x) (Some y) = Ok r) by (destruct G as [r G]; exists r; split; [exact G|exact (C200_answer m x y r G)]).
  unfold StateEqual. destruct (x =? y); [eexists; reflexivity|]. cbv zeta. revert A B. generalize (mState m x) (mState m y). intros s t A B.
  repeat match goal with |- exists r, (if ?c then Ok false else _) = Ok r => destruct c; [eexists; reflexivity|] end.
  assert (P1 := ptrEq_spec m (gNext s) (gNext t)). destruct (KeyEntryEqual m (gNext s) (gNext t)) as [e1| |]; [|destruct P1|destruct (A P1)]. cbn [rbind].
  destruct e1; cbn [negb]; [|eexists; reflexivity].
  assert (P2 := ptrEq_spec m (gSeen s) (gSeen t)). destruct (KeyEntryEqual m (gSeen s) (gSeen t)) as [e2| |]; [|destruct P2|destruct (B P2)]. cbn [rbind].
  destruct e2; cbn [negb]; [|eexists; reflexivity].
  repeat match goal with |- exists r, (if ?c then Ok false else _) = Ok r => destruct c; [eexists; reflexivity|] end. eexists; reflexivity.
Qed.
(* False without the condition: a state that has just refreshed its session and one that has not crash the comparison *)
Definition exKey (n : N) : keyEntry := mkKE (str "suite") (str "ECDHE25519") [n] [n].
Definition exG (next : ptr) : gstate := mkG 1 2 3 (exKey 1) (exKey 2) next None (str "nym") true.
Definition exMem : memory := mkMem exKey (fun x => if x =? 0 then exG None else if x =? 1 then exG (Some 7) else exG (Some 8)).
Theorem C200_refuted : exists m x y, contents m x <> contents m y /\ StateEqual m (Some x) (Some y) = Panic.
Proof. exists exMem, 0, 1. split; [vm_compute; intros H; discriminate H|vm_compute; reflexivity]. Qed.
Example C200_ex : ~ oneNil (gNext (mState exMem 1)) (gNext (mState exMem 2)) /\ ~ oneNil (gSeen (mState exMem 1)) (gSeen (mState exMem 2)) /\
  StateEqual exMem (Some 1) (Some 2) = Ok false /\ StateEqual exMem (Some 2) (Some 3) = Ok true.
Proof. repeat split; try (intros [[A _]|[_ A]]; discriminate A); try (intros [[_ A]|[A _]]; apply A; reflexivity); vm_compute; reflexivity. Qed.

Print Assumptions C200_answer.
Print Assumptions C200_partial.
Print Assumptions C200_refuted.
