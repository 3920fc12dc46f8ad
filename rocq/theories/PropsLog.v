(* C205: the log is written to the file it should be written to. *)
From Verif Require Import Base IdentityModel GenerateModel LogModel.
Local Open Scope N_scope.

(* ------------------------------------------------------------------ *)
(* The specification.  Printable ASCII; the characters that mean something in Go strings or in XML text. *)
Definition printable (c : N) : Prop := 32 <= c <= 126.
Definition special (c : N) : Prop := c = 34 \/ c = 92 \/ c = 38 \/ c = 60.   (* quotation mark, backslash, ampersand, less-than *)
Definition level (l : list N) : Prop := In l [str "trace"; str "debug"; str "info"; str "warn"; str "error"; str "critical"; str "off"].
(* a path with every backslash doubled *)
Definition doubled (p : list N) : list N := concat (map (fun c => if c =? 92 then [92; 92] else [c]) p).

(* ------------------------------------------------------------------ *)
Lemma level_known l : levelKnown l = true <-> level l.
Proof.
  unfold levelKnown, level. fold logLevels. rewrite existsb_exists. split.
  - intros (x & H & E). apply beq_spec in E. subst l. exact H.
  - intros H. exists l. split; [exact H|apply beq_refl].
Qed.
Lemma qchar_plain c : printable c -> c <> 34 -> c <> 92 -> qchar c = [c].
Proof.
  intros [A B] N1 N2. unfold qchar. repeat match goal with |- context [if ?b then _ else _] => destruct b eqn:?; try reflexivity end;
    repeat match goal with H : (_ =? _) = true |- _ => apply N.eqb_eq in H | H : (_ <? _) = true |- _ => apply N.ltb_lt in H | H : (_ <=? _) = true |- _ => apply N.leb_le in H
      | H : (_ || _)%bool = true |- _ => apply Bool.orb_true_iff in H | H : (_ && _)%bool = true |- _ => apply Bool.andb_true_iff in H end; exfalso; intuition (subst; lia || congruence).
Qed.
Lemma quoted p : Forall printable p -> Forall (fun c => c <> 34) p -> flat_map qchar p = doubled p.
Proof.
  induction p as [|c p IH]; intros P Q; [reflexivity|]. inversion P as [|? ? P1 P2]; subst. inversion Q as [|? ? Q1 Q2]; subst. cbn [flat_map]. unfold doubled. cbn [map concat]. fold (doubled p). rewrite (IH P2 Q2). f_equal.
  destruct (c =? 92) eqn:E; [apply N.eqb_eq in E; subst c; reflexivity|]. apply N.eqb_neq in E. apply qchar_plain; assumption.
Qed.
Definition inText (c : N) : Prop := c <> 34 /\ c <> 38 /\ c <> 60.
Lemma value_read v r : Forall inText v -> attrValue None (v ++ 34 :: r) = Ok (v, r).
Proof.
  induction 1 as [|c v (A & B & D) F IH]; [reflexivity|]. cbn [app attrValue]. apply N.eqb_neq in A, B, D. rewrite A, B, D, IH. reflexivity.
Qed.
Lemma doubled_text p : Forall (fun c => c <> 34 /\ c <> 38 /\ c <> 60) p -> Forall inText (doubled p).
Proof.
  induction 1 as [|c p H F IH]; [constructor|]. unfold doubled. cbn [map concat]. fold (doubled p). apply Forall_app. split; [|exact IH].
  destruct (c =? 92); [|constructor; [exact H|constructor]]. repeat constructor; discriminate.
Qed.
Lemma doubled_plain p : Forall (fun c => c <> 92) p -> doubled p = p.
Proof. induction 1 as [|c p H F IH]; [reflexivity|]. unfold doubled. cbn [map concat]. fold (doubled p). rewrite IH. apply N.eqb_neq in H. rewrite H. reflexivity. Qed.
Lemma doubled_longer p : In 92 p -> doubled p <> p.
Proof.
  intros H E. assert (L : forall q, (length q <= length (doubled q))%nat).
  { clear. induction q as [|c q IH]; [apply le_n|]. unfold doubled. cbn [map concat]. fold (doubled q). rewrite app_length. destruct (c =? 92); cbn [length]; lia. }
  assert (K : (length p < length (doubled p))%nat); [|rewrite E in K; lia]. clear E. induction p as [|c p IH]; [destruct H|]. unfold doubled. cbn [map concat]. fold (doubled p). rewrite app_length.
  destruct H as [->|H]; [change (92 =? 92) with true; cbv iota; change (length [92; 92]) with 2%nat; cbn [length]; specialize (L p); lia|]. specialize (IH H). destruct (c =? 92); cbn [length]; lia.
Qed.
Lemma type_read n Y : attrList (S n) (str " type=""size""" ++ Y) = do l <- attrList n Y; Ok ((str "type", str "size") :: l).
Proof. reflexivity. Qed.
Lemma filename_read n X : attrList (S n) (str " filename=" ++ (34 :: X)) = do (v, w) <- attrValue None X; do l <- attrList n w; Ok ((str "filename", v) :: l).
Proof. reflexivity. Qed.
Lemma list_read n X : attrList (S (S n)) (str " type=""size"" filename=" ++ (34 :: X)) =
  do (v, w) <- attrValue None X; do l <- attrList n w; Ok ((str "type", str "size") :: (str "filename", v) :: l).
Proof.
  change (str " type=""size"" filename=" ++ 34 :: X) with (str " type=""size""" ++ (str " filename=" ++ (34 :: X))). rewrite type_read, filename_read.
  destruct (attrValue None X) as [[v w]|e|]; [|reflexivity|reflexivity]. cbv beta iota delta [rbind]. destruct (attrList n w) as [l|e|]; reflexivity.
Qed.

(* ------------------------------------------------------------------ *)
Lemma file_read p : Forall printable p -> Forall (fun c => c <> 34 /\ c <> 38 /\ c <> 60) p -> fileOf p = Ok (doubled p).
Proof.
  intros P Q. unfold fileOf, rollingfile, goQuote. rewrite quoted; [|exact P|eapply Forall_impl; [|exact Q]; intros c H; apply H].
  replace (str " type=""size"" filename=" ++ (34 :: doubled p ++ [34]) ++ str " maxsize=""10485760"" maxrolls=""3"" />")
    with (str " type=""size"" filename=" ++ (34 :: (doubled p ++ 34 :: str " maxsize=""10485760"" maxrolls=""3"" />"))) by (f_equal; cbn [app]; f_equal; rewrite <- app_assoc; reflexivity).
  change (8 + length p)%nat with (S (S (6 + length p))). rewrite list_read, (value_read (doubled p) _ (doubled_text p Q)). reflexivity.
Qed.
(* The full statement of C205 is: any path.  It is refuted below. *)
Theorem C205_partial : forall l prefix p, level l -> lenN prefix = 5 -> Forall (fun c => printable c /\ ~ special c) p -> logInit l prefix (Some p) = Ok (Some p).
Proof.
  intros l prefix p L PR F. unfold logInit. apply level_known in L. rewrite L, PR. cbn [negb N.eqb Pos.eqb]. rewrite file_read.
  - rewrite doubled_plain; [reflexivity|]. eapply Forall_impl; [|exact F]. intros c [_ H]. unfold special in H. tauto.
  - eapply Forall_impl; [|exact F]. intros c [H _]. exact H.
  - eapply Forall_impl; [|exact F]. intros c [_ H]. unfold special in H. tauto.
Qed.
(* A backslash is doubled, so that the file is another one (Windows reads the two names alike). *)
Theorem C205_backslash : forall l prefix p, level l -> lenN prefix = 5 -> Forall (fun c => printable c /\ (special c -> c = 92)) p -> In 92 p ->
  logInit l prefix (Some p) = Ok (Some (doubled p)) /\ doubled p <> p.
Proof.
  intros l prefix p L PR F I9. split; [|apply doubled_longer, I9]. unfold logInit. apply level_known in L. rewrite L, PR. cbn [negb N.eqb Pos.eqb]. rewrite file_read; [reflexivity| |].
  - eapply Forall_impl; [|exact F]. intros c [H _]. exact H.
  - eapply Forall_impl; [|exact F]. intros c [_ H]. unfold special in H. repeat split; intros ->; specialize (H ltac:(tauto)); discriminate H.
Qed.
(* A path with a less-than sign and nothing else that is special: the program does not start. *)
Lemma value_less v r : Forall inText v -> attrValue None (v ++ 60 :: r) = Err "XML syntax error: unescaped < inside quoted string".
Proof. induction 1 as [|c v (A & B & D) F IH]; [reflexivity|]. cbn [app attrValue]. apply N.eqb_neq in A, B, D. rewrite A, B, D, IH. reflexivity. Qed.
Theorem C205_less : forall l prefix a b, Forall (fun c => printable c /\ ~ special c) a -> forall f, logInit l prefix (Some (a ++ 60 :: b)) <> Ok f.
Proof.
  intros l prefix a b F f. unfold logInit. destruct (negb (levelKnown l)); [discriminate|]. destruct (negb (lenN prefix =? 5)); [discriminate|].
  unfold fileOf, rollingfile, goQuote. rewrite flat_map_app. cbn [flat_map]. rewrite quoted; [rewrite doubled_plain| |].
  - change (qchar 60) with [60]. change (8 + length (a ++ 60%N :: b))%nat with (S (S (6 + length (a ++ 60%N :: b)))).
    match goal with |- context [attrList _ ?t] => replace t with (str " type=""size"" filename=" ++ (34 :: (a ++ 60 :: (flat_map qchar b ++ 34 :: str " maxsize=""10485760"" maxrolls=""3"" />")))) end.
    2: { rewrite <- !app_assoc. cbn [app]. rewrite <- ?app_assoc. cbn [app]. rewrite <- ?app_assoc. reflexivity. }
    rewrite list_read.
    rewrite value_less; [discriminate|]. eapply Forall_impl; [|exact F]. intros c [_ H]. unfold special in H. unfold inText. tauto.
  - eapply Forall_impl; [|exact F]. intros c [_ H]. unfold special in H. tauto.
  - eapply Forall_impl; [|exact F]. intros c [H _]. exact H.
  - eapply Forall_impl; [|exact F]. intros c [_ H]. unfold special in H. tauto.
Qed.
(* An ampersand whose name of letters and digits is not followed by a semicolon, nothing special being before it: the program does not
   start either. *)
Definition alnum (c : N) : Prop := 65 <= c <= 90 \/ 97 <= c <= 122 \/ 48 <= c <= 57.
Lemma alnum_name c : nameChar c = true <-> alnum c.
Proof.
  unfold nameChar, alnum. rewrite !Bool.orb_true_iff, !Bool.andb_true_iff, !N.leb_le. intuition lia.
Qed.
Lemma value_noent v n c r : Forall inText v -> Forall alnum n -> ~ alnum c -> c <> 59 ->
  attrValue None (v ++ 38 :: n ++ c :: r) = Err "XML syntax error: invalid character entity (no semicolon)".
Proof.
  intros V N0 A S. induction V as [|x v (X & Y & Z) F IH].
  - cbn [app attrValue]. change (38 =? 34) with false. change (38 =? 60) with false. change (38 =? 38) with true. cbv iota. generalize (@nil N) as acc.
    induction N0 as [|x n X F IH]; intros acc; cbn [app attrValue].
    + apply N.eqb_neq in S. rewrite S. destruct (nameChar c) eqn:K; [apply alnum_name in K; contradiction|reflexivity].
    + destruct (x =? 59) eqn:K; [apply N.eqb_eq in K; subst x; unfold alnum in X; lia|]. apply alnum_name in X. rewrite X. apply IH.
  - cbn [app attrValue]. apply N.eqb_neq in X, Y, Z. rewrite X, Y, Z, IH. reflexivity.
Qed.
Lemma alnum_q n : Forall alnum n -> flat_map qchar n = n.
Proof.
  induction 1 as [|x n X F IH]; [reflexivity|]. cbn [flat_map]. rewrite IH, qchar_plain; [reflexivity| | |]; unfold alnum, printable in *; lia.
Qed.
Theorem C205_ampersand : forall l prefix a n c b, Forall (fun c => printable c /\ ~ special c) a -> Forall alnum n -> printable c -> ~ alnum c -> c <> 59 ->
  forall f, logInit l prefix (Some (a ++ 38 :: n ++ c :: b)) <> Ok f.
Proof.
  intros l prefix a n c b F AN P NA NS f. unfold logInit. destruct (negb (levelKnown l)); [discriminate|]. destruct (negb (lenN prefix =? 5)); [discriminate|].
  assert (Q : exists x r, qchar c = x :: r /\ ~ alnum x /\ x <> 59).
  { destruct (N.eq_dec c 34) as [->|N1]; [exists 92, [34]; unfold alnum; repeat split; try reflexivity; lia|]. destruct (N.eq_dec c 92) as [->|N2]; [exists 92, [92]; repeat split; try reflexivity; [exact NA|exact NS]|].
    exists c, []. rewrite qchar_plain by assumption. repeat split; assumption. }
  destruct Q as (x & r & Q & XA & XS).
  assert (IT : Forall inText a) by (eapply Forall_impl; [|exact F]; intros y [_ H]; unfold special in H; unfold inText; tauto).
  unfold fileOf, rollingfile, goQuote. rewrite flat_map_app. cbn [flat_map]. rewrite flat_map_app. cbn [flat_map]. rewrite Q, (alnum_q n AN).
  rewrite quoted; [rewrite doubled_plain| |].
  - change (qchar 38) with [38]. change (8 + length (a ++ 38%N :: n ++ c :: b))%nat with (S (S (6 + length (a ++ 38%N :: n ++ c :: b)))).
    match goal with |- context [attrList _ ?t] => replace t with (str " type=""size"" filename=" ++ (34 :: (a ++ 38 :: n ++ x :: (r ++ flat_map qchar b ++ 34 :: str " maxsize=""10485760"" maxrolls=""3"" />")))) end.
    2: { rewrite <- !app_assoc. repeat (cbn [app]; rewrite <- ?app_assoc). reflexivity. }
    rewrite list_read, (value_noent a n x _ IT AN XA XS). discriminate.
  - eapply Forall_impl; [|exact F]. intros y [_ H]. unfold special in H. tauto.
  - eapply Forall_impl; [|exact F]. intros y [H _]. exact H.
  - eapply Forall_impl; [|exact F]. intros y [_ H]. unfold special in H. tauto.
Qed.
(* A level that is not known and a prefix of another length are refused; without a directory there is no file. *)
Theorem C205_refused : forall l prefix p, ~ level l \/ lenN prefix <> 5 -> forall f, logInit l prefix p <> Ok f.
Proof.
  intros l prefix p H f. unfold logInit. destruct (levelKnown l) eqn:K; cbn [negb]; [|discriminate]. apply level_known in K. destruct H as [H|H]; [contradiction|].
  apply N.eqb_neq in H. rewrite H. discriminate.
Qed.
Theorem C205_none : forall l prefix, level l -> lenN prefix = 5 -> logInit l prefix None = Ok None.
Proof. intros l prefix L PR. unfold logInit. apply level_known in L. rewrite L, PR. reflexivity. Qed.
(* The statement of C205 fails: with a home directory that has an ampersand in its name no program of mute starts. *)
Theorem C205_refuted : exists p, Forall printable p /\ forall l prefix f, logInit l prefix (Some p) <> Ok f.
Proof.
  exists (str "/home/r&d/mute/log/mutectrl.log"). split.
  - unfold printable. repeat (constructor; [split; vm_compute; discriminate|]). constructor.
  - intros l prefix f. unfold logInit. destruct (negb (levelKnown l)); [discriminate|]. destruct (negb (lenN prefix =? 5)); [discriminate|].
    intros H. vm_compute in H. discriminate H.
Qed.
(* With the name of an entity in the path another file is written to. *)
Theorem C205_other_refuted : exists p f, Forall printable p /\ logInit (str "info") (str "ctrl ") (Some p) = Ok (Some f) /\ f <> p /\ ~ In 92 p.
Proof.
  exists (str "/home/a&amp;b/log/mutectrl.log"), (str "/home/a&b/log/mutectrl.log"). split; [unfold printable; repeat (constructor; [split; vm_compute; discriminate|]); constructor|].
  split; [vm_compute; reflexivity|]. split; [intros H; vm_compute in H; discriminate H|]. intros H. vm_compute in H. repeat destruct H as [H|H]; try discriminate H; destruct H.
Qed.

(* the prefixes of the four programs (protoengine.go:56, cryptengine.go:66, mutetui.go:46, ctrlengine.go:243) *)
Example C205_ex : level (str "info") /\ Forall (fun x => lenN x = 5) [str "proto"; str "crypt"; str " tui "; str "ctrl "] /\
  Forall (fun c => printable c /\ ~ special c) (str "/home/alice/.config/mute/log/mutectrl.log") /\
  Forall (fun c => printable c /\ (special c -> c = 92)) (str "C:\mute\log\mutectrl.log") /\ In 92 (str "C:\mute\log\mutectrl.log") /\ ~ level (str "verbose") /\
  Forall (fun c => printable c /\ ~ special c) (str "/home/r") /\ Forall alnum (str "d") /\ ~ alnum 47.
Proof.
  split; [unfold level; cbn [In]; auto|]. split; [repeat constructor|]. split; [|split; [|split; [|split; [|split; [|split]]]]].
  - unfold printable, special. repeat (constructor; [vm_compute; intuition discriminate|]). constructor.
  - unfold printable, special. repeat (constructor; [vm_compute; intuition (discriminate || reflexivity)|]). constructor.
  - vm_compute. auto.
  - intros H. apply level_known in H. vm_compute in H. discriminate H.
  - unfold printable, special. repeat (constructor; [vm_compute; intuition discriminate|]). constructor.
  - constructor; [apply alnum_name; reflexivity|constructor].
  - intros H. apply alnum_name in H. discriminate H.
Qed.

Print Assumptions C205_partial.
Print Assumptions C205_backslash.
Print Assumptions C205_less.
Print Assumptions C205_ampersand.
Print Assumptions C205_refused.
Print Assumptions C205_none.
Print Assumptions C205_refuted.
Print Assumptions C205_other_refuted.
