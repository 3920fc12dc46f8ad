(* Finite maps with byte-string keys, used for Go maps and database tables with a
   unique key column. *)
From Verif Require Import Base.

Definition map_ (V : Type) := list (bytes * V).
Fixpoint mget {V} (k : bytes) (m : map_ V) : option V :=
  match m with
  | [] => None
  | (k', v) :: m' => if beq k k' then Some v else mget k m'
  end.
Fixpoint mdel {V} (k : bytes) (m : map_ V) : map_ V :=
  match m with
  | [] => []
  | (k', v) :: m' => if beq k k' then mdel k m' else (k', v) :: mdel k m'
  end.
Definition mset {V} (k : bytes) (v : V) (m : map_ V) : map_ V := (k, v) :: mdel k m.
Definition mfilter {V} (f : bytes -> V -> bool) (m : map_ V) : map_ V :=
  filter (fun p => f (fst p) (snd p)) m.
Definition mhas {V} (k : bytes) (m : map_ V) : bool := match mget k m with Some _ => true | None => false end.

Lemma mget_mdel_same {V} k (m : map_ V) : mget k (mdel k m) = None.
Proof.
  induction m as [|[k' v] m IH]; [reflexivity|]. cbn [mdel]. destruct (beq k k') eqn:E; [exact IH|].
  cbn [mget]. rewrite E. exact IH.
Qed.
Lemma mget_mdel_other {V} k k' (m : map_ V) : k <> k' -> mget k (mdel k' m) = mget k m.
Proof.
  intros H. induction m as [|[k2 v] m IH]; [reflexivity|]. cbn [mdel mget].
  destruct (beq k' k2) eqn:E.
  - apply beq_spec in E as <-. destruct (beq k k') eqn:E2; [apply beq_spec in E2; contradiction|exact IH].
  - cbn [mget]. destruct (beq k k2); [reflexivity|exact IH].
Qed.
Lemma mget_mset_same {V} k v (m : map_ V) : mget k (mset k v m) = Some v.
Proof. unfold mset; cbn [mget]. now rewrite beq_refl. Qed.
Lemma mget_mset_other {V} k k' v (m : map_ V) : k <> k' -> mget k (mset k' v m) = mget k m.
Proof.
  intros H. unfold mset; cbn [mget]. destruct (beq k k') eqn:E; [apply beq_spec in E; contradiction|].
  apply mget_mdel_other; exact H.
Qed.
Lemma mget_mset {V} k k' v (m : map_ V) : mget k (mset k' v m) = if beq k k' then Some v else mget k m.
Proof.
  destruct (beq k k') eqn:E.
  - apply beq_spec in E as ->. apply mget_mset_same.
  - apply mget_mset_other. apply beq_neq; exact E.
Qed.
Lemma mget_In {V} k v (m : map_ V) : mget k m = Some v -> In (k, v) m.
Proof.
  induction m as [|[k' v'] m IH]; cbn [mget]; [discriminate|].
  destruct (beq k k') eqn:E.
  - intros H; injection H as ->. apply beq_spec in E as ->. now left.
  - intros H; right; auto.
Qed.
(* Keys are unique in every map built by mset/mdel/mfilter. *)
Definition mwf {V} (m : map_ V) : Prop := NoDup (map fst m).
Lemma mdel_keys {V} k x (m : map_ V) : In x (map fst (mdel k m)) -> In x (map fst m) /\ x <> k.
Proof.
  induction m as [|[k' v] m IH]; cbn [mdel map fst]; [intros []|].
  destruct (beq k k') eqn:E.
  - intros H; destruct (IH H); split; [now right|assumption].
  - cbn [map fst]. intros [<-|H]; [split; [now left|]|].
    + apply beq_neq in E; congruence.
    + destruct (IH H); split; [now right|assumption].
Qed.
Lemma mwf_mdel {V} k (m : map_ V) : mwf m -> mwf (mdel k m).
Proof.
  unfold mwf. induction m as [|[k' v] m IH]; cbn [mdel map fst]; intros H; [constructor|].
  inversion H as [|? ? Hn Hd]; subst. destruct (beq k k'); [auto|].
  cbn [map fst]. constructor; [|auto]. intros Hi. apply mdel_keys in Hi as [Hi _]. contradiction.
Qed.
Lemma mwf_mset {V} k v (m : map_ V) : mwf m -> mwf (mset k v m).
Proof.
  intros H. unfold mset, mwf. cbn [map fst]. constructor; [|apply mwf_mdel; exact H].
  intros Hi. apply mdel_keys in Hi as [_ Hi]. congruence.
Qed.
Lemma mwf_nil {V} : mwf (@nil (bytes * V)).
Proof. constructor. Qed.
Lemma mwf_mfilter {V} f (m : map_ V) : mwf m -> mwf (mfilter f m).
Proof.
  unfold mwf, mfilter. induction m as [|[k v] m IH]; cbn [filter map fst snd]; intros H; [constructor|].
  inversion H as [|? ? Hn Hd]; subst. destruct (f k v); [|auto].
  cbn [map fst]. constructor; [|auto]. intros Hi. apply Hn. apply in_map_iff in Hi as ([k2 v2] & E & Hi).
  apply filter_In in Hi as [Hi _]. cbn in E; subst. apply in_map_iff. exists (k, v2); auto.
Qed.
Lemma In_mget {V} k v (m : map_ V) : mwf m -> In (k, v) m -> mget k m = Some v.
Proof.
  unfold mwf. induction m as [|[k' v'] m IH]; cbn [map fst mget]; intros H Hi; [destruct Hi|].
  inversion H as [|? ? Hn Hd]; subst. destruct Hi as [E|Hi].
  - injection E as -> ->. now rewrite beq_refl.
  - destruct (beq k k') eqn:E; [|auto]. apply beq_spec in E as ->. elim Hn. apply in_map_iff. exists (k', v); auto.
Qed.
Lemma mget_mfilter {V} f k (m : map_ V) : mwf m ->
  mget k (mfilter f m) = match mget k m with Some v => if f k v then Some v else None | None => None end.
Proof.
  unfold mwf, mfilter. induction m as [|[k' v'] m IH]; cbn [map fst snd mget filter]; intros H; [reflexivity|].
  inversion H as [|? ? Hn Hd]; subst. destruct (beq k k') eqn:E.
  - apply beq_spec in E as ->. destruct (f k' v') eqn:F.
    + cbn [mget]. now rewrite beq_refl.
    + rewrite IH by exact Hd. destruct (mget k' m) eqn:G; [|reflexivity].
      apply mget_In in G. elim Hn. apply in_map_iff. exists (k', v); auto.
  - destruct (f k' v'); cbn [mget]; [rewrite E|]; apply IH; exact Hd.
Qed.
