(* Lemmas about the table operations of SqlModel. *)
From Verif Require Import Base SqlModel.
From Coq Require Import Sorting.Sorted.
Local Open Scope N_scope.

Lemma nextId_gt {A} (t : tbl A) r : In r t -> fst r < nextId t.
Proof.
  unfold nextId. induction t as [|x t IH]; [intros []|]. cbn [map fold_right].
  intros [<-|H]; [lia|]. specialize (IH H). lia.
Qed.
Lemma nextId_pos {A} (t : tbl A) : 0 < nextId t.
Proof. unfold nextId. lia. Qed.
Lemma SS_app_last l x : StronglySorted N.lt l -> Forall (fun y => y < x) l -> StronglySorted N.lt (l ++ [x]).
Proof.
  induction l as [|a l IH]; cbn [app]; intros S F.
  - constructor; constructor.
  - inversion S as [|? ? S' F']; subst. inversion F as [|? ? Fa Fl]; subst. constructor; [apply IH; assumption|].
    apply Forall_app; split; [assumption|]. constructor; [exact Fa|constructor].
Qed.
Lemma idsOk_nil {A} : idsOk (@nil (N * A)).
Proof. split; constructor. Qed.
Lemma idsOk_tins {A} (a : A) t : idsOk t -> idsOk (tins a t).
Proof.
  intros [S P]. unfold idsOk, tins. rewrite map_app. cbn [map fst]. split.
  - apply SS_app_last; [exact S|]. rewrite Forall_map. apply Forall_forall. intros r H. apply nextId_gt; exact H.
  - apply Forall_app; split; [exact P|]. constructor; [apply nextId_pos|constructor].
Qed.
Lemma tupd_ids {A} p (f : A -> A) t : map fst (tupd p f t) = map fst t.
Proof.
  unfold tupd. rewrite map_map. apply map_ext. intros r. destruct (p (fst r) (snd r)); reflexivity.
Qed.
Lemma idsOk_tupd {A} p (f : A -> A) t : idsOk t -> idsOk (tupd p f t).
Proof. unfold idsOk. now rewrite tupd_ids. Qed.
Lemma idsOk_filter {A} (p : N * A -> bool) t : idsOk t -> idsOk (filter p t).
Proof.
  intros [S P]. induction t as [|x t IH]; [split; constructor|].
  cbn [map] in S, P. inversion S as [|? ? S' F']; subst. inversion P as [|? ? Pa Pl]; subst.
  destruct (IH S' Pl) as [S2 P2]. cbn [filter]. destruct (p x); [|split; assumption].
  split; cbn [map]; constructor; try assumption.
  rewrite Forall_map in *. rewrite Forall_forall in *. intros y Y. apply filter_In in Y. apply F'. tauto.
Qed.
Lemma idsOk_tdel {A} p (t : tbl A) : idsOk t -> idsOk (tdel p t).
Proof. apply idsOk_filter. Qed.
Lemma idsOk_NoDup {A} (t : tbl A) : idsOk t -> NoDup (map fst t).
Proof.
  intros [S _]. induction S as [|a l S IH F]; constructor; [|exact IH].
  intros H. rewrite Forall_forall in F. specialize (F _ H). lia.
Qed.
Lemma idsOk_unique {A} (t : tbl A) i a b : idsOk t -> In (i, a) t -> In (i, b) t -> a = b.
Proof.
  intros O. apply idsOk_NoDup in O. induction t as [|x t IH]; [intros []|].
  cbn [map] in O. inversion O as [|? ? N O']; subst. intros [X|X] [Y|Y].
  - congruence.
  - subst x. elim N. cbn [fst]. change i with (fst (i, b)). now apply in_map.
  - subst x. elim N. cbn [fst]. change i with (fst (i, a)). now apply in_map.
  - apply IH; assumption.
Qed.

(* With increasing row ids the smallest matching row is the first one inserted. *)
Lemma tmin_find {A} p (t : tbl A) : idsOk t -> tmin p t = find (fun r => p (fst r) (snd r)) t.
Proof.
  intros [S _]. induction t as [|x t IH]; [reflexivity|].
  cbn [map] in S. inversion S as [|? ? S' F']; subst. cbn [tmin find]. rewrite (IH S').
  destruct (p (fst x) (snd x)); [|reflexivity].
  destruct (find (fun r => p (fst r) (snd r)) t) as [r'|] eqn:E; [|reflexivity].
  apply find_some in E as [I _]. rewrite Forall_map, Forall_forall in F'. specialize (F' _ I).
  destruct (N.ltb_spec (fst r') (fst x)); [lia|reflexivity].
Qed.
Lemma tmin_some {A} p (t : tbl A) r : tmin p t = Some r -> In r t /\ p (fst r) (snd r) = true.
Proof.
  revert r; induction t as [|x t IH]; intros r; cbn [tmin]; [discriminate|].
  destruct (p (fst x) (snd x)) eqn:E.
  - destruct (tmin p t) as [r'|] eqn:M.
    + destruct (fst r' <? fst x); intros H; injection H as <-.
      * destruct (IH _ eq_refl). split; [now right|assumption].
      * split; [now left|exact E].
    + intros H; injection H as <-. split; [now left|exact E].
  - intros H. destruct (IH _ H). split; [now right|assumption].
Qed.
Lemma tmin_least {A} p (t : tbl A) r : tmin p t = Some r ->
  forall s, In s t -> p (fst s) (snd s) = true -> fst r <= fst s.
Proof.
  revert r; induction t as [|x t IH]; intros r; cbn [tmin]; [discriminate|].
  destruct (p (fst x) (snd x)) eqn:E.
  - destruct (tmin p t) as [r'|] eqn:M.
    + destruct (N.ltb_spec (fst r') (fst x)); intros Q; injection Q as <-; intros s [<-|I] P; try lia.
      * apply (IH _ eq_refl); assumption.
      * specialize (IH _ eq_refl s I P). lia.
    + intros Q; injection Q as <-; intros s [<-|I] P; [lia|].
      exfalso. clear - M I P. induction t as [|y t IHt]; [destruct I|].
      cbn [tmin] in M. destruct I as [<-|I].
      * rewrite P in M. destruct (tmin p t); [destruct (fst p0 <? fst y)|]; discriminate.
      * destruct (p (fst y) (snd y)); [destruct (tmin p t) as [q|]; [destruct (fst q <? fst y)|]; discriminate|].
        apply IHt; assumption.
  - intros Q s [<-|I] P; [congruence|]. apply (IH _ Q); assumption.
Qed.
Lemma tmin_none {A} p (t : tbl A) : tmin p t = None -> forall s, In s t -> p (fst s) (snd s) = false.
Proof.
  induction t as [|y t IHt]; intros M s I; [destruct I|].
  cbn [tmin] in M. destruct (p (fst y) (snd y)) eqn:E.
  - destruct (tmin p t) as [q|]; [destruct (fst q <? fst y)|]; discriminate.
  - destruct I as [<-|I]; [exact E|]. apply IHt; assumption.
Qed.
Lemma tmin_none_intro {A} p (t : tbl A) : (forall s, In s t -> p (fst s) (snd s) = false) -> tmin p t = None.
Proof.
  intros H. destruct (tmin p t) as [r|] eqn:E; [|reflexivity].
  apply tmin_some in E as [I P]. rewrite (H _ I) in P. discriminate.
Qed.
Lemma tget_In {A} id (t : tbl A) a : tget id t = Some a -> In (id, a) t.
Proof.
  unfold tget. destruct (tmin _ t) as [[i x]|] eqn:E; [|discriminate]. intros H; injection H as <-.
  apply tmin_some in E as [I P]. cbn [fst snd] in P. apply N.eqb_eq in P as ->. exact I.
Qed.
Lemma tget_intro {A} id (t : tbl A) a : idsOk t -> In (id, a) t -> tget id t = Some a.
Proof.
  intros O I. unfold tget. destruct (tmin _ t) as [[i x]|] eqn:E.
  - apply tmin_some in E as [J P]. cbn [fst snd] in P. apply N.eqb_eq in P as ->.
    f_equal. eapply idsOk_unique; eassumption.
  - pose proof (tmin_none _ _ E _ I) as Q. cbn [fst snd] in Q. rewrite N.eqb_refl in Q. discriminate.
Qed.
Lemma tget_none {A} id (t : tbl A) : tget id t = None -> forall a, ~ In (id, a) t.
Proof.
  unfold tget. destruct (tmin _ t) as [[i x]|] eqn:E; [discriminate|]. intros _ a I.
  pose proof (tmin_none _ _ E _ I) as Q. cbn [fst snd] in Q. rewrite N.eqb_refl in Q. discriminate.
Qed.
Lemma In_tins {A} r (a : A) t : In r (tins a t) <-> In r t \/ r = (nextId t, a).
Proof. unfold tins. rewrite in_app_iff. cbn [In]. intuition. Qed.
Lemma In_tdel {A} r p (t : tbl A) : In r (tdel p t) <-> In r t /\ p (fst r) (snd r) = false.
Proof. unfold tdel. rewrite filter_In, negb_true_iff. reflexivity. Qed.
Lemma In_tsel {A} r p (t : tbl A) : In r (tsel p t) <-> In r t /\ p (fst r) (snd r) = true.
Proof. unfold tsel. apply filter_In. Qed.
Lemma In_tupd {A} r p (f : A -> A) t : In r (tupd p f t) <->
  exists s, In s t /\ r = if p (fst s) (snd s) then (fst s, f (snd s)) else s.
Proof.
  unfold tupd. rewrite in_map_iff. split; intros [s [X Y]]; exists s; auto.
Qed.
Lemma thas_true {A} p (t : tbl A) : thas p t = true <-> exists r, In r t /\ p (fst r) (snd r) = true.
Proof. unfold thas. apply existsb_exists. Qed.
Lemma thas_false {A} p (t : tbl A) : thas p t = false -> forall r, In r t -> p (fst r) (snd r) = false.
Proof.
  intros H r I. destruct (p (fst r) (snd r)) eqn:E; [|reflexivity].
  assert (thas p t = true) by (apply thas_true; eauto). congruence.
Qed.
(* selections after updates *)
Lemma tsel_tins {A} p (a : A) t :
  tsel p (tins a t) = tsel p t ++ (if p (nextId t) a then [(nextId t, a)] else []).
Proof. unfold tsel, tins. rewrite filter_app. cbn [filter fst snd]. reflexivity. Qed.
Lemma tsel_tupd_other {A} p q (f : A -> A) t :
  (forall i a, q i a = true -> p i a = false /\ p i (f a) = false) -> tsel p (tupd q f t) = tsel p t.
Proof.
  intros H. unfold tsel, tupd. induction t as [|[i a] t IH]; [reflexivity|]. cbn [map filter fst snd].
  destruct (q i a) eqn:E; cbn [fst snd].
  - destruct (H _ _ E) as [-> ->]. exact IH.
  - rewrite IH. reflexivity.
Qed.
Lemma tsel_tdel_other {A} p q (t : tbl A) :
  (forall i a, In (i, a) t -> q i a = true -> p i a = false) -> tsel p (tdel q t) = tsel p t.
Proof.
  intros H. unfold tsel, tdel. induction t as [|[i a] t IH]; [reflexivity|]. cbn [filter fst snd].
  destruct (q i a) eqn:E; cbn [negb].
  - rewrite (H i a (or_introl eq_refl) E). apply IH. intros; apply (H i0 a0); [now right|assumption].
  - cbn [filter fst snd]. rewrite IH by (intros; apply (H i0 a0); [now right|assumption]). reflexivity.
Qed.
Lemma tsel_none {A} p (t : tbl A) : (forall i a, In (i, a) t -> p i a = false) -> tsel p t = [].
Proof.
  unfold tsel. induction t as [|[i a] t IH]; intros H; [reflexivity|]. cbn [filter fst snd].
  rewrite (H i a (or_introl eq_refl)). apply IH. intros; apply H; now right.
Qed.
Lemma tdel_none {A} p (t : tbl A) : (forall i a, In (i, a) t -> p i a = false) -> tdel p t = t.
Proof.
  unfold tdel. induction t as [|[i a] t IH]; intros H; [reflexivity|]. cbn [filter fst snd].
  rewrite (H i a (or_introl eq_refl)). cbn [negb]. f_equal. apply IH. intros; apply H; now right.
Qed.
Lemma tupd_none {A} p (f : A -> A) (t : tbl A) : (forall i a, In (i, a) t -> p i a = false) -> tupd p f t = t.
Proof.
  unfold tupd. induction t as [|[i a] t IH]; intros H; [reflexivity|]. cbn [map fst snd].
  rewrite (H i a (or_introl eq_refl)). f_equal. apply IH. intros; apply H; now right.
Qed.
Lemma tdel_tsel {A} p (t : tbl A) : tdel p t = tsel (fun i a => negb (p i a)) t.
Proof. reflexivity. Qed.
Lemma find_ext {A} (p q : A -> bool) t : (forall r, In r t -> p r = q r) -> find p t = find q t.
Proof.
  induction t as [|x t IH]; intros H; [reflexivity|]. cbn [find].
  rewrite (H x (or_introl eq_refl)). destruct (q x); [reflexivity|]. apply IH. intros; apply H; now right.
Qed.
