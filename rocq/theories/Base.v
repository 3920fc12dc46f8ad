(* Base vocabulary of the model: byte strings, results, fixed-width integers. *)
From Coq Require Export List NArith ZArith Lia Bool.
From Coq Require Export ZifyBool ZifyNat ZifyN.
From Coq Require Import String Ascii.
Export ListNotations.
Export StringSyntax.
Ltac Zify.zify_post_hook ::= Z.div_mod_to_equations.

#[global] Arguments N.add : simpl never.
#[global] Arguments N.sub : simpl never.
#[global] Arguments N.mul : simpl never.
#[global] Arguments N.div : simpl never.
#[global] Arguments N.modulo : simpl never.
#[global] Arguments N.pow : simpl never.
#[global] Arguments N.to_nat : simpl never.
#[global] Arguments N.of_nat : simpl never.
#[global] Arguments N.eqb : simpl never.
#[global] Arguments N.ltb : simpl never.
#[global] Arguments N.leb : simpl never.

(* A Go byte / byte slice / string. *)
Definition byte := N.
Definition bytes := list N.

(* Every element is a byte value. *)
Definition wfb (b : bytes) : Prop := Forall (fun x => (x < 256)%N) b.
Definition wfbb (b : bytes) : bool := forallb (fun x => (x <? 256)%N) b.

(* Go string literal. *)
Definition str (s : string) : bytes := map N_of_ascii (list_ascii_of_string s).
Arguments str s%string.

(* Go (value, error) results; [Panic] is a run-time panic. *)
Inductive res (A : Type) : Type :=
| Ok (a : A)
| Err (e : string)
| Panic.
Arguments Ok {A} a.
Arguments Err {A} e%string.
Arguments Panic {A}.

Definition rbind {A B} (m : res A) (f : A -> res B) : res B :=
  match m with Ok a => f a | Err e => Err e | Panic => Panic end.
Notation "'do' x <- m ; k" := (rbind m (fun x => k))
  (at level 200, x pattern, m at level 100, k at level 200, right associativity).

Definition is_ok {A} (r : res A) : bool := match r with Ok _ => true | _ => false end.
Definition is_panic {A} (r : res A) : bool := match r with Panic => true | _ => false end.

(* ------------------------------------------------------------------ *)
(* Lengths and sub-slices with N indices.                              *)

Definition lenN {A} (l : list A) : N := N.of_nat (List.length l).
Definition takeN {A} (n : N) (l : list A) : list A := firstn (N.to_nat n) l.
Definition dropN {A} (n : N) (l : list A) : list A := skipn (N.to_nat n) l.

Lemma lenN_nil (A : Type) : lenN (@nil A) = 0%N.
Proof. reflexivity. Qed.
Lemma lenN_cons {A} (x : A) l : lenN (x :: l) = (1 + lenN l)%N.
Proof. unfold lenN; cbn [List.length]; lia. Qed.
Lemma lenN_app {A} (a b : list A) : lenN (a ++ b) = (lenN a + lenN b)%N.
Proof. unfold lenN; rewrite app_length; lia. Qed.
Lemma lenN_map {A B} (f : A -> B) l : lenN (map f l) = lenN l.
Proof. unfold lenN; rewrite map_length; lia. Qed.
Lemma lenN_rev {A} (l : list A) : lenN (rev l) = lenN l.
Proof. unfold lenN; rewrite rev_length; lia. Qed.
Lemma lenN_repeat {A} (x : A) n : lenN (repeat x n) = N.of_nat n.
Proof. unfold lenN; rewrite repeat_length; lia. Qed.
Lemma lenN_0 {A} (l : list A) : lenN l = 0%N -> l = [].
Proof. destruct l; [reflexivity|]; unfold lenN; cbn [List.length]; lia. Qed.
Lemma lenN_takeN {A} n (l : list A) : lenN (takeN n l) = N.min n (lenN l).
Proof. unfold lenN, takeN; rewrite firstn_length; lia. Qed.
Lemma lenN_dropN {A} n (l : list A) : lenN (dropN n l) = (lenN l - n)%N.
Proof. unfold lenN, dropN; rewrite skipn_length; lia. Qed.
Lemma takeN_dropN {A} n (l : list A) : takeN n l ++ dropN n l = l.
Proof. apply firstn_skipn. Qed.
Lemma takeN_app {A} (a b : list A) n : lenN a = n -> takeN n (a ++ b) = a.
Proof.
  unfold lenN, takeN; intros H.
  replace (N.to_nat n) with (List.length a + 0) by lia.
  rewrite firstn_app_2; cbn [firstn]; apply app_nil_r.
Qed.
Lemma dropN_app {A} (a b : list A) n : lenN a = n -> dropN n (a ++ b) = b.
Proof.
  unfold lenN, dropN; intros H.
  replace (N.to_nat n) with (List.length a) by lia.
  rewrite skipn_app, skipn_all, Nat.sub_diag; reflexivity.
Qed.
Lemma takeN_all {A} (a : list A) n : (lenN a <= n)%N -> takeN n a = a.
Proof. unfold lenN, takeN; intros; apply firstn_all2; lia. Qed.
Lemma dropN_all {A} (a : list A) n : (lenN a <= n)%N -> dropN n a = [].
Proof. unfold lenN, dropN; intros; apply skipn_all2; lia. Qed.
Lemma takeN_0 {A} (a : list A) : takeN 0 a = [].
Proof. reflexivity. Qed.
Lemma dropN_0 {A} (a : list A) : dropN 0 a = a.
Proof. reflexivity. Qed.
Lemma dropN_dropN {A} m n (l : list A) : dropN m (dropN n l) = dropN (n + m) l.
Proof.
  unfold dropN. rewrite N2Nat.inj_add.
  generalize (N.to_nat n) (N.to_nat m); clear; intros n m; revert l.
  induction n as [|n IH]; intros l; [reflexivity|].
  destruct l as [|x l]; cbn [Nat.add skipn]; [now rewrite skipn_nil | apply IH].
Qed.

#[global] Opaque takeN dropN.

Lemma wfb_app a b : wfb (a ++ b) <-> wfb a /\ wfb b.
Proof. apply Forall_app. Qed.
Lemma wfb_takeN n l : wfb l -> wfb (takeN n l).
Proof. intros H. rewrite <- (takeN_dropN n l) in H. apply wfb_app in H. tauto. Qed.
Lemma wfb_dropN n l : wfb l -> wfb (dropN n l).
Proof. intros H. rewrite <- (takeN_dropN n l) in H. apply wfb_app in H. tauto. Qed.
Lemma wfbb_spec l : wfbb l = true <-> wfb l.
Proof.
  unfold wfbb, wfb. rewrite forallb_forall, Forall_forall.
  split; intros H x Hx; specialize (H x Hx); lia.
Qed.
Lemma wfb_repeat x n : (x < 256)%N -> wfb (repeat x n).
Proof. intros H; apply Forall_forall; intros y Hy; apply repeat_spec in Hy; subst; exact H. Qed.

(* Decidable equality on byte strings (Go ==, bytes.Equal). *)
Fixpoint beq (a b : bytes) : bool :=
  match a, b with
  | [], [] => true
  | x :: a', y :: b' => N.eqb x y && beq a' b'
  | _, _ => false
  end.
Lemma beq_spec a b : beq a b = true <-> a = b.
Proof.
  revert b; induction a as [|x a IH]; intros [|y b]; cbn [beq];
    try (split; congruence).
  rewrite andb_true_iff, N.eqb_eq, IH. split; [intros [-> ->]; reflexivity | intros E; inversion E; auto].
Qed.
Lemma beq_refl a : beq a a = true.
Proof. apply beq_spec; reflexivity. Qed.
Lemma beq_neq a b : beq a b = false <-> a <> b.
Proof. rewrite <- beq_spec. destruct (beq a b); split; congruence. Qed.
Lemma beq_sym a b : beq a b = beq b a.
Proof.
  destruct (beq a b) eqn:E.
  - apply beq_spec in E; subst; symmetry; apply beq_refl.
  - apply beq_neq in E. symmetry. apply beq_neq. congruence.
Qed.
Definition bytes_eq_dec (a b : bytes) : {a = b} + {a <> b} := list_eq_dec N.eq_dec a b.

(* Lexicographic order of Go strings. *)
Fixpoint bltb (a b : bytes) : bool :=
  match a, b with
  | [], [] => false
  | [], _ :: _ => true
  | _ :: _, [] => false
  | x :: a', y :: b' => if N.ltb x y then true else if N.eqb x y then bltb a' b' else false
  end.
Lemma bltb_irrefl a : bltb a a = false.
Proof. induction a as [|x a IH]; cbn [bltb]; [reflexivity|]. rewrite N.ltb_irrefl, N.eqb_refl; exact IH. Qed.
Lemma bltb_trans a b c : bltb a b = true -> bltb b c = true -> bltb a c = true.
Proof.
  revert b c; induction a as [|x a IH]; intros [|y b] [|z c]; cbn [bltb]; try congruence.
  destruct (N.ltb_spec x y), (N.ltb_spec y z); intros H1 H2.
  - destruct (N.ltb_spec x z); [reflexivity|lia].
  - destruct (N.eqb_spec y z); [subst|congruence]. destruct (N.ltb_spec x z); [reflexivity|lia].
  - destruct (N.eqb_spec x y); [subst|congruence]. destruct (N.ltb_spec y z); [reflexivity|lia].
  - destruct (N.eqb_spec x y) as [Exy|]; [|congruence]. destruct (N.eqb_spec y z) as [Eyz|]; [|congruence].
    rewrite Exy, Eyz, N.ltb_irrefl, N.eqb_refl. eapply IH; eassumption.
Qed.
Lemma bltb_total a b : bltb a b = true \/ a = b \/ bltb b a = true.
Proof.
  revert b; induction a as [|x a IH]; intros [|y b]; cbn [bltb]; auto.
  destruct (N.ltb_spec x y); [auto|]. destruct (N.ltb_spec y x); [auto|].
  assert (x = y) as -> by lia. rewrite N.eqb_refl.
  destruct (IH b) as [H1|[->|H1]]; auto.
Qed.
Lemma bltb_asym a b : bltb a b = true -> bltb b a = false.
Proof.
  intros H. destruct (bltb b a) eqn:E; [|reflexivity].
  pose proof (bltb_trans _ _ _ H E) as H2. rewrite bltb_irrefl in H2; discriminate.
Qed.

(* ------------------------------------------------------------------ *)
(* Fixed-width integers.                                               *)

(* Big endian, [n] bytes (encoding/binary.BigEndian); wraps like a Go uint. *)
Fixpoint be (n : nat) (v : N) : bytes :=
  match n with
  | O => []
  | S k => be k (v / 256) ++ [v mod 256]
  end%N.
Definition be_dec (b : bytes) : N := fold_left (fun a x => a * 256 + x)%N b 0%N.
(* Little endian. *)
Fixpoint le (n : nat) (v : N) : bytes :=
  match n with
  | O => []
  | S k => (v mod 256) :: le k (v / 256)
  end%N.
Fixpoint le_dec (b : bytes) : N :=
  match b with [] => 0 | x :: b' => x + 256 * le_dec b' end%N.

Lemma be_length n v : List.length (be n v) = n.
Proof. revert v; induction n as [|n IH]; intros v; cbn [be]; [reflexivity|]. rewrite app_length, IH; cbn; lia. Qed.
Lemma lenN_be n v : lenN (be n v) = N.of_nat n.
Proof. unfold lenN; now rewrite be_length. Qed.
Lemma be_dec_snoc b x : be_dec (b ++ [x]) = (be_dec b * 256 + x)%N.
Proof. unfold be_dec; rewrite fold_left_app; reflexivity. Qed.
Lemma pow256_S k : (256 ^ N.of_nat (S k) = 256 * 256 ^ N.of_nat k)%N.
Proof. rewrite Nat2N.inj_succ, N.pow_succ_r'; reflexivity. Qed.
Lemma be_dec_be n v : be_dec (be n v) = (v mod 256 ^ N.of_nat n)%N.
Proof.
  revert v; induction n as [|n IH]; intros v; cbn [be].
  - change (256 ^ N.of_nat 0)%N with 1%N. rewrite N.mod_1_r. reflexivity.
  - rewrite be_dec_snoc, IH, pow256_S.
    rewrite N.mod_mul_r; [|lia|apply N.pow_nonzero; lia]. rewrite N.add_comm, N.mul_comm. reflexivity.
Qed.
Lemma be_dec_be_id n v : (v < 256 ^ N.of_nat n)%N -> be_dec (be n v) = v.
Proof. intros H. rewrite be_dec_be. apply N.mod_small; exact H. Qed.
Lemma wfb_be n v : wfb (be n v).
Proof.
  revert v; induction n as [|n IH]; intros v; cbn [be]; [constructor|].
  apply wfb_app; split; [apply IH|]. constructor; [|constructor]. apply N.mod_lt; lia.
Qed.
Lemma be_dec_bound b : wfb b -> (be_dec b < 256 ^ lenN b)%N.
Proof.
  induction b as [|x b IH] using rev_ind; intros H.
  - reflexivity.
  - apply wfb_app in H as [H1 H2]. inversion H2; subst.
    rewrite be_dec_snoc, lenN_app. specialize (IH H1).
    change (lenN [x]) with 1%N. rewrite N.pow_add_r. change (256 ^ 1)%N with 256%N. nia.
Qed.
Lemma be_be_dec b : wfb b -> be (List.length b) (be_dec b) = b.
Proof.
  induction b as [|x b IH] using rev_ind; intros H; [reflexivity|].
  apply wfb_app in H as [H1 H2]. inversion H2; subst.
  rewrite app_length, Nat.add_comm; cbn [List.length Nat.add be].
  rewrite be_dec_snoc. rewrite N.div_add_l by lia. rewrite (N.div_small x) by assumption.
  rewrite N.add_0_r, IH by assumption. f_equal. f_equal.
  rewrite N.add_comm, N.mod_add by lia. apply N.mod_small; assumption.
Qed.
Lemma be_inj n u v : (u < 256 ^ N.of_nat n)%N -> (v < 256 ^ N.of_nat n)%N -> be n u = be n v -> u = v.
Proof. intros Hu Hv E. rewrite <- (be_dec_be_id n u Hu), <- (be_dec_be_id n v Hv), E. reflexivity. Qed.

Lemma le_length n v : List.length (le n v) = n.
Proof. revert v; induction n as [|n IH]; intros v; cbn [le]; [reflexivity|]. cbn [List.length]; now rewrite IH. Qed.
Lemma lenN_le n v : lenN (le n v) = N.of_nat n.
Proof. unfold lenN; now rewrite le_length. Qed.
Lemma le_dec_le n v : le_dec (le n v) = (v mod 256 ^ N.of_nat n)%N.
Proof.
  revert v; induction n as [|n IH]; intros v; cbn [le le_dec].
  - change (256 ^ N.of_nat 0)%N with 1%N. now rewrite N.mod_1_r.
  - rewrite IH, pow256_S. rewrite N.mod_mul_r; [reflexivity|lia|apply N.pow_nonzero; lia].
Qed.
Lemma wfb_le n v : wfb (le n v).
Proof.
  revert v; induction n as [|n IH]; intros v; cbn [le]; constructor; [apply N.mod_lt; lia | apply IH].
Qed.
Lemma le_le_dec b : wfb b -> le (List.length b) (le_dec b) = b.
Proof.
  induction b as [|x b IH]; intros H; [reflexivity|]. inversion H; subst.
  cbn [List.length le le_dec]. f_equal.
  - rewrite (N.mul_comm 256), N.mod_add by lia. apply N.mod_small; assumption.
  - rewrite (N.mul_comm 256), N.div_add by lia. rewrite (N.div_small x) by assumption. apply IH; assumption.
Qed.

(* io.ReadFull(r, make([]byte, n)): the bytes read and the rest, or an error. *)
Definition read_full (n : N) (r : bytes) : option (bytes * bytes) :=
  if (lenN r <? n)%N then None else Some (takeN n r, dropN n r).

Lemma read_full_app n a b : lenN a = n -> read_full n (a ++ b) = Some (a, b).
Proof.
  intros H. unfold read_full. rewrite lenN_app.
  destruct (N.ltb_spec (lenN a + lenN b) n); [lia|].
  now rewrite takeN_app, dropN_app.
Qed.
Lemma read_full_inv n r a b : read_full n r = Some (a, b) -> r = a ++ b /\ lenN a = n.
Proof.
  unfold read_full. destruct (N.ltb_spec (lenN r) n); [discriminate|].
  intros E; inversion E; subst. split; [symmetry; apply takeN_dropN|]. rewrite lenN_takeN; lia.
Qed.
Lemma read_full_short n r : (lenN r < n)%N -> read_full n r = None.
Proof. intros H. unfold read_full. destruct (N.ltb_spec (lenN r) n); [reflexivity|lia]. Qed.

(* Normalize lengths of concrete list shapes. *)
Ltac lenN_simp :=
  repeat first
    [ match goal with |- context [@lenN ?A (@nil ?A)] => change (@lenN A (@nil A)) with 0%N end
    | match goal with |- context [@lenN ?A (?x :: ?l)] => rewrite (@lenN_cons A x l) end
    | match goal with |- context [@lenN ?A (?x ++ ?l)] => rewrite (@lenN_app A x l) end ].
