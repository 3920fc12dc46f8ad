(* The text buffer and the editor: C68, C69, C70. *)
From Verif Require Import Base IdentityModel IdentityProofs Utf8Model TextBufferModel.
Local Open Scope nat_scope.

(* ---------------- Specification: a line is a sequence of glyphs, each a width, a base rune and its combining runes ---------------- *)
Definition glyph := (nat * N * list N)%type.
Definition gW (g : glyph) : nat := fst (fst g).
Definition gRunes (g : glyph) : list N := snd (fst g) :: snd g.
Definition text (gl : list glyph) : list N := concat (map gRunes gl).
Definition width (gl : list glyph) : nat := fold_right (fun g n => gW g + n) 0 gl.
Definition okGlyph (W : N -> nat) (g : glyph) : Prop := (gW g = 1 \/ gW g = 2) /\ W (snd (fst g)) = gW g /\ Forall (fun c => W c = 0) (snd g).
(* a line that starts with a combining rune gets a space in front *)
Definition spaced (W : N -> nat) (rs : list N) : list N := match rs with [] => [] | r :: _ => if W r =? 0 then 32%N :: rs else rs end.
(* the line shows the glyphs *)
Definition shows (l : line) (gl : list glyph) : Prop :=
  lRunes l = text gl /\ length (lChars l) = length gl /\ length (lCells l) = width gl /\
  forall pre g post, gl = pre ++ g :: post -> lineChar l (length pre) = gRunes g /\
    forall k, k < gW g -> lineCell l (width pre + k) = (gRunes g, if k =? 0 then gW g else 0).

(* ---------------- Proofs ---------------- *)
Fixpoint ends (k : nat) (gl : list glyph) : list nat := match gl with [] => [] | g :: r => (k + length (gRunes g)) :: ends (k + length (gRunes g)) r end.
Definition cellsOf (i w : nat) : list (nat * nat) := match w with 0 => [] | S w' => (i, w) :: repeat (i, 0) w' end.
Fixpoint cells (i : nat) (gl : list glyph) : list (nat * nat) := match gl with [] => [] | g :: r => cellsOf i (gW g) ++ cells (S i) r end.
Definition repr (l : line) (gl : list glyph) : Prop := lRunes l = text gl /\ lChars l = ends 0 gl /\ lCells l = cells 0 gl.
Lemma text_app a b : text (a ++ b) = text a ++ text b.
Proof. unfold text. rewrite map_app, concat_app. reflexivity. Qed.
Lemma text_cons g b : text (g :: b) = gRunes g ++ text b.
Proof. reflexivity. Qed.
Lemma width_app a b : width (a ++ b) = width a + width b.
Proof. induction a as [|g a IH]; [reflexivity|]. cbn [app width fold_right]. fold (width (a ++ b)). rewrite IH. fold (width a). lia. Qed.
Lemma ends_app k a b : ends k (a ++ b) = ends k a ++ ends (k + length (text a)) b.
Proof. revert k. induction a as [|g a IH]; intros k; [cbn; rewrite Nat.add_0_r; reflexivity|]. cbn [app ends]. rewrite IH, text_cons, app_length, Nat.add_assoc. reflexivity. Qed.
Lemma ends_length k a : length (ends k a) = length a.
Proof. revert k. induction a as [|g a IH]; intros k; [reflexivity|]. cbn [ends length]. rewrite IH. reflexivity. Qed.
Lemma cells_app i a b : cells i (a ++ b) = cells i a ++ cells (i + length a) b.
Proof. revert i. induction a as [|g a IH]; intros i; [cbn; rewrite Nat.add_0_r; reflexivity|]. cbn [app cells length]. rewrite IH, <- app_assoc. rewrite Nat.add_succ_r. reflexivity. Qed.
Lemma cellsOf_length i w : length (cellsOf i w) = w.
Proof. destruct w; [reflexivity|]. cbn [cellsOf length]. rewrite repeat_length. reflexivity. Qed.
Lemma cells_length i a : length (cells i a) = width a.
Proof. revert i. induction a as [|g a IH]; intros i; [reflexivity|]. cbn [cells width fold_right]. rewrite app_length, cellsOf_length, IH. reflexivity. Qed.
Lemma incLast_app l x : incLast (l ++ [x]) = l ++ [S x].
Proof. unfold incLast. rewrite rev_app_distr. cbn [rev app]. rewrite rev_involutive. reflexivity. Qed.

Lemma addRune_repr W l gl r l' : W 32%N = 1 -> repr l gl -> Forall (okGlyph W) gl -> addRune W l r = Ok l' ->
  exists gl', repr l' gl' /\ Forall (okGlyph W) gl' /\ text gl' = (match gl with [] => if W r =? 0 then [32%N] else [] | _ => [] end) ++ text gl ++ [r].
Proof.
  intros SP (R1 & R2 & R3) G E. unfold addRune in E. destruct (W r) as [|[|[|w]]] eqn:WR; [| | |discriminate].
  - cbn [Nat.eqb]. destruct gl as [|g0 gl0] eqn:EG.
    + rewrite R1 in E. cbn [text map concat app lChars lCells lRunes] in E. rewrite R2, R3 in E. cbn in E. exists [((1, 32%N), [r])]. injection E as <-. split; [split; [reflexivity|split; reflexivity]|]. split; [|reflexivity]. constructor; [|constructor]. split; [left; reflexivity|]. split; [exact SP|]. constructor; [exact WR|constructor].
    + destruct (@exists_last _ (g0 :: gl0) ltac:(discriminate)) as (pre & [[w b] cs] & Q). rewrite Q in *. clear Q gl EG. rewrite text_app in R1. assert (NE : exists x y, lRunes l = x :: y). { rewrite R1. unfold text. cbn [map concat gRunes fst snd]. destruct (concat (map gRunes pre)); eexists _, _; reflexivity. } destruct NE as (x & y & NE). rewrite NE in E. rewrite R2, ends_app in E. cbn [ends] in E.
      assert (NC : exists x0 y0, ends 0 pre ++ [0 + length (text pre) + length (gRunes (w, b, cs))] = x0 :: y0) by (destruct (ends 0 pre); eexists _, _; reflexivity). destruct NC as (x0 & y0 & NC). rewrite NC in E. rewrite <- NC in E. rewrite incLast_app in E. injection E as <-.
      exists (pre ++ [(w, b, cs ++ [r])]). split; [|split].
      * split; [|split]; cbn [lRunes lChars lCells].
        -- rewrite R1, !text_app. unfold text. cbn [map concat gRunes fst snd]. rewrite !app_nil_r, <- app_assoc. reflexivity.
        -- rewrite ends_app. cbn [ends]. f_equal. f_equal. unfold gRunes. cbn [fst snd length]. rewrite app_length. cbn [length]. lia.
        -- rewrite R3, !cells_app. reflexivity.
      * apply Forall_app in G as [G1 G2]. apply Forall_app. split; [exact G1|]. constructor; [|constructor]. apply Forall_inv in G2 as (A & B & D). split; [exact A|]. split; [exact B|]. cbn [snd] in *. apply Forall_app. split; [exact D|]. constructor; [exact WR|constructor].
      * rewrite !text_app. unfold text. cbn [map concat gRunes fst snd app]. rewrite !app_nil_r, <- app_assoc. reflexivity.
  - cbn [Nat.eqb]. injection E as <-. exists (gl ++ [(1, r, [])]). split; [|split].
    + split; [|split]; cbn [lRunes lChars lCells].
      * rewrite R1, text_app. reflexivity.
      * rewrite R1, R2, ends_app. cbn [ends]. rewrite app_length. reflexivity.
      * rewrite R2, R3, cells_app. cbn [cells]. rewrite ends_length. reflexivity.
    + apply Forall_app. split; [exact G|]. constructor; [|constructor]. split; [left; reflexivity|]. split; [exact WR|constructor].
    + rewrite text_app. destruct gl; reflexivity.
  - cbn [Nat.eqb]. injection E as <-. exists (gl ++ [(2, r, [])]). split; [|split].
    + split; [|split]; cbn [lRunes lChars lCells].
      * rewrite R1, text_app. reflexivity.
      * rewrite R1, R2, ends_app. cbn [ends]. rewrite app_length. reflexivity.
      * rewrite R2, R3, cells_app. cbn [cells]. rewrite ends_length. reflexivity.
    + apply Forall_app. split; [exact G|]. constructor; [|constructor]. split; [right; reflexivity|]. split; [exact WR|constructor].
    + rewrite text_app. destruct gl; reflexivity.
Qed.
Lemma addRunes_repr W rs l gl l' : W 32%N = 1 -> repr l gl -> Forall (okGlyph W) gl -> addRunes W l rs = Ok l' ->
  exists gl', repr l' gl' /\ Forall (okGlyph W) gl' /\ text gl' = match gl with [] => spaced W rs | _ => text gl ++ rs end.
Proof.
  intros SP. revert l gl. induction rs as [|r rs IH]; intros l gl R G E; cbn [addRunes] in E.
  - injection E as <-. exists gl. split; [exact R|]. split; [exact G|]. destruct gl; [reflexivity|]. rewrite app_nil_r. reflexivity.
  - destruct (addRune W l r) as [l1| |] eqn:A; try discriminate. cbn [rbind] in E. destruct (addRune_repr _ _ _ _ _ SP R G A) as (gl1 & R1 & G1 & T1). destruct (IH _ _ R1 G1 E) as (gl2 & R2 & G2 & T2). exists gl2. split; [exact R2|]. split; [exact G2|].
    destruct gl1 as [|g1 gl1']; [exfalso; destruct gl; [destruct (W r =? 0)|destruct (text (g :: gl))]; discriminate T1|]. rewrite T2, T1. destruct gl as [|g gl0]; [|cbn [app]; rewrite <- app_assoc; reflexivity]. cbn [spaced]. destruct (W r =? 0); reflexivity.
Qed.
Lemma nth_error_mid {A} (pre : list A) x post : nth_error (pre ++ x :: post) (length pre) = Some x.
Proof. rewrite nth_error_app2 by lia. rewrite Nat.sub_diag. reflexivity. Qed.
Lemma repr_char l gl pre g post : repr l gl -> gl = pre ++ g :: post -> lineChar l (length pre) = gRunes g.
Proof.
  intros (R1 & R2 & R3) ->. unfold lineChar. assert (NE : nth_error (lChars l) (length pre) = Some (length (text pre) + length (gRunes g))).
  { rewrite R2, ends_app. rewrite <- (ends_length 0 pre). cbn [ends]. rewrite nth_error_mid. reflexivity. }
  rewrite NE. assert (LO : match length pre with 0 => 0 | S x' => nth x' (lChars l) 0 end = length (text pre)).
  { destruct pre as [|p0 pre0] eqn:EP; [reflexivity|]. cbn [length]. destruct (@exists_last _ (p0 :: pre0) ltac:(discriminate)) as (q & h & Q). rewrite Q in R2. assert (LQ : length pre0 = length q). { apply (f_equal (@length _)) in Q. rewrite app_length in Q. cbn [length] in Q. lia. }
    rewrite R2, <- app_assoc, ends_app, app_nth2; rewrite ends_length; [|lia]. rewrite LQ, Nat.sub_diag. cbn [app ends nth]. rewrite Q, text_app, app_length. change (text [h]) with (gRunes h ++ []). rewrite app_nil_r. reflexivity. }
  rewrite LO. unfold slice. rewrite R1, text_app, text_cons. rewrite app_assoc. rewrite <- app_length. rewrite firstn_app, firstn_all. rewrite Nat.sub_diag. cbn [firstn]. rewrite app_nil_r. rewrite skipn_app, skipn_all, Nat.sub_diag. reflexivity.
Qed.
Lemma nth_cellsOf i w k : k < w -> nth_error (cellsOf i w) k = Some (i, if k =? 0 then w else 0).
Proof. intros L. destruct w as [|w]; [lia|]. cbn [cellsOf]. destruct k as [|k]; [reflexivity|]. cbn [nth_error Nat.eqb]. apply nth_error_repeat. lia. Qed.
Lemma repr_shows l gl : repr l gl -> shows l gl.
Proof.
  intros R. pose proof R as (R1 & R2 & R3). split; [exact R1|]. split; [rewrite R2; apply ends_length|]. split; [rewrite R3; apply cells_length|]. intros pre g post E. split; [eapply repr_char; eassumption|]. intros k L. unfold lineCell. rewrite R3, E, cells_app, nth_error_app2 by (rewrite cells_length; lia). rewrite cells_length. replace (width pre + k - width pre) with k by lia. cbn [cells Nat.add]. rewrite nth_error_app1 by (rewrite cellsOf_length; exact L). rewrite nth_cellsOf by exact L. rewrite (repr_char _ _ _ _ _ R E). reflexivity.
Qed.
Lemma parseRow_shows W row l : W 32%N = 1 -> parseRow W row = Ok l -> exists gl, shows l gl /\ Forall (okGlyph W) gl /\ text gl = spaced W (runes row).
Proof.
  intros SP E. destruct (addRunes_repr W _ emptyLine [] l SP ltac:(split; [reflexivity|split; reflexivity]) ltac:(constructor) E) as (gl & R & G & T). exists gl. split; [apply repr_shows, R|]. split; [exact G|exact T].
Qed.
Lemma parseRows_nth W rows tb : parseRows W rows = Ok tb -> length tb = length rows /\ forall y row, nth_error rows y = Some row -> exists l, nth_error tb y = Some l /\ parseRow W row = Ok l.
Proof.
  revert tb. induction rows as [|r rows IH]; intros tb E; cbn [parseRows] in E.
  - injection E as <-. split; [reflexivity|]. intros [|y] row Q; discriminate.
  - destruct (parseRow W r) as [l| |] eqn:P; try discriminate. cbn [rbind] in E. destruct (parseRows W rows) as [ls| |] eqn:PS; try discriminate. cbn [rbind] in E. injection E as <-. destruct (IH ls eq_refl) as [L N0]. split; [cbn [length]; rewrite L; reflexivity|]. intros [|y] row Q; cbn [nth_error] in *; [|apply N0, Q]. exists l. split; [reflexivity|]. congruence.
Qed.

(* ---------------- C68 ---------------- *)
(* Every row of the text is shown by one line of the buffer, glyph by glyph and cell by cell. *)
Theorem C68_lines : forall W b tb, W 32%N = 1 -> newBuffer W b = Ok tb -> length tb = length (splitOn 10%N b) /\
  forall y row, nth_error (splitOn 10%N b) y = Some row -> exists l gl, nth_error tb y = Some l /\ shows l gl /\ Forall (okGlyph W) gl /\ text gl = spaced W (runes row).
Proof.
  intros W b tb SP E. apply parseRows_nth in E as [L N0]. split; [exact L|]. intros y row Q. destruct (N0 y row Q) as (l & A & B). destruct (parseRow_shows _ _ _ SP B) as (gl & S1 & S2 & S3). exists l, gl. auto.
Qed.
(* loading never panics with a width function of at most 2 *)
Theorem C68_loads : forall W b, (forall r, W r <= 2) -> exists tb, newBuffer W b = Ok tb.
Proof.
  intros W b WM. unfold newBuffer. assert (A : forall rs l, (lRunes l = [] <-> lChars l = []) -> exists l', addRunes W l rs = Ok l').
  { induction rs as [|r rs IH]; intros l I; [exists l; reflexivity|]. cbn [addRunes]. assert (ST : exists l1, addRune W l r = Ok l1 /\ (lRunes l1 = [] <-> lChars l1 = [])).
    { unfold addRune. pose proof (WM r) as M. destruct (W r) as [|[|[|w]]]; [| | |lia].
      - cbv zeta. destruct (lRunes l) as [|x y] eqn:LR.
        + cbn [lChars lRunes lCells]. destruct (lChars l ++ [1]) as [|c cs] eqn:Q; [destruct (lChars l); discriminate|]. eexists. split; [reflexivity|]. rewrite <- Q. cbn [lRunes lChars]. rewrite incLast_app. split; intros Z0; [discriminate|destruct (lChars l); discriminate].
        + destruct (lChars l) as [|c cs] eqn:Q; [destruct I as [_ I]; discriminate (I eq_refl)|]. eexists. split; [reflexivity|]. cbn [lRunes lChars]. destruct (@exists_last _ (c :: cs) ltac:(discriminate)) as (q & h & QQ). rewrite QQ, incLast_app. split; intros Z0; [destruct (lRunes l); discriminate|destruct q; discriminate].
      - eexists. split; [reflexivity|]. cbn [lRunes lChars]. split; intros Z0; [destruct (lRunes l)|destruct (lChars l)]; discriminate.
      - eexists. split; [reflexivity|]. cbn [lRunes lChars]. split; intros Z0; [destruct (lRunes l)|destruct (lChars l)]; discriminate. }
    destruct ST as (l1 & -> & I1). cbn [rbind]. apply IH, I1. }
  induction (splitOn 10%N b) as [|r rows IH]; [exists []; reflexivity|]. cbn [parseRows]. destruct (A (runes r) emptyLine ltac:(split; reflexivity)) as [l E]. unfold parseRow. rewrite E. cbn [rbind]. destruct IH as [tb ->]. cbn [rbind]. eexists. reflexivity.
Qed.
(* writing gives the rows back, up to the added spaces and the replacement of invalid bytes *)
Fixpoint joinLines (first : bool) (ls : list bytes) : bytes := match ls with [] => [] | l :: r => (if first then [] else [10%N]) ++ l ++ joinLines false r end.
Lemma write_join W rows tb first : W 32%N = 1 -> parseRows W rows = Ok tb -> writeLines first tb = joinLines first (map (fun row => encodeAll (spaced W (runes row))) rows).
Proof.
  intros SP. revert first tb. induction rows as [|r rows IH]; intros first tb E; cbn [parseRows] in E.
  - injection E as <-. reflexivity.
  - destruct (parseRow W r) as [l| |] eqn:P; try discriminate. cbn [rbind] in E. destruct (parseRows W rows) as [ls| |] eqn:PS; try discriminate. cbn [rbind] in E. injection E as <-. cbn [writeLines map joinLines]. rewrite (IH false ls eq_refl). destruct (parseRow_shows _ _ _ SP P) as (gl & (T & _) & _ & T2). rewrite T, T2. reflexivity.
Qed.
(* the text is valid UTF-8 *)
Definition validUtf8 (b : bytes) : Prop := exists rs, Forall (fun r => scalar r = true) rs /\ b = encodeAll rs.
(* no line starts with a combining rune *)
Definition noLeading (W : N -> nat) (b : bytes) : Prop := forall row r rs, In row (splitOn 10%N b) -> runes row = r :: rs -> W r <> 0.
Lemma split_join rows : rows <> [] -> Forall (fun r => ~ In 10%N r) rows -> splitOn 10%N (joinLines true rows) = rows.
Proof.
  intros NE F. destruct F as [|r rows N0 F]; [congruence|]. clear NE. cbn [joinLines app]. revert r N0. induction F as [|r2 rows N2 F IH]; intros r N0.
  - cbn [joinLines]. rewrite app_nil_r. apply splitOn_none, N0.
  - cbn [joinLines]. change (r ++ [10%N] ++ r2 ++ joinLines false rows) with (r ++ 10%N :: (r2 ++ joinLines false rows)). rewrite splitOn_app by exact N0. rewrite IH by exact N2. reflexivity.
Qed.
Lemma join_split b first : joinLines first (splitOn 10%N b) = (if first then [] else [10%N]) ++ b.
Proof.
  revert first. induction b as [|c b IH]; intros first; [destruct first; reflexivity|]. cbn [splitOn]. destruct (N.eqb_spec c 10) as [->|NE]; [cbn [joinLines app]; rewrite IH; reflexivity|]. pose proof (IH true) as I. destruct (splitOn 10%N b) as [|p ps]; [cbn in I; subst b; destruct first; reflexivity|]. cbn [joinLines app] in I |- *. rewrite I. reflexivity.
Qed.
Lemma splitOn_parts b : Forall (fun r => ~ In 10%N r) (splitOn 10%N b).
Proof.
  induction b as [|c b IH]; cbn [splitOn]; [constructor; [intros []|constructor]|]. destruct (N.eqb_spec c 10) as [->|NE]; [constructor; [intros []|exact IH]|]. destruct (splitOn 10%N b) as [|p ps]; [constructor; [intros [Q|[]]; congruence|constructor]|]. inversion_clear IH as [|? ? A B]. constructor; [|exact B]. intros [Q|Q]; [congruence|exact (A Q)].
Qed.
Lemma splitOn_nonempty b : splitOn 10%N b <> [].
Proof. destruct b as [|c b]; cbn [splitOn]; [discriminate|]. destruct (c =? 10)%N; [discriminate|]. destruct (splitOn 10%N b); discriminate. Qed.
Lemma encodeAll_app a b : encodeAll (a ++ b) = encodeAll a ++ encodeAll b.
Proof. unfold encodeAll. rewrite map_app, concat_app. reflexivity. Qed.
Lemma encodeAll_no10 rs : Forall (fun r => scalar r = true) rs -> ~ In 10%N rs -> ~ In 10%N (encodeAll rs).
Proof.
  intros F. induction F as [|r rs V F IH]; intros N0; [intros []|]. change (encodeAll (r :: rs)) with (encodeRune r ++ encodeAll rs). intros I. apply in_app_or in I as [I|I]; [apply (encode_no10 r V); [intros ->; apply N0; left; reflexivity|exact I]|]. apply IH; [intros Q; apply N0; right; exact Q|exact I].
Qed.
Lemma splitOn_cons (c : N) s : c <> 10%N -> splitOn 10%N (c :: s) = match splitOn 10%N s with [] => [[c]] | p :: ps => (c :: p) :: ps end.
Proof. intros NE. cbn [splitOn]. destruct (N.eqb_spec c 10); [congruence|reflexivity]. Qed.
Lemma splitOn_pre a s : ~ In 10%N a -> splitOn 10%N (a ++ s) = match splitOn 10%N s with [] => [a] | p :: ps => (a ++ p) :: ps end.
Proof.
  induction a as [|c a IH]; intros N0; cbn [app]; [pose proof (splitOn_nonempty s); destruct (splitOn 10%N s); congruence|]. rewrite splitOn_cons by (intros ->; apply N0; left; reflexivity). rewrite IH by (intros Q; apply N0; right; exact Q). destruct (splitOn 10%N s); reflexivity.
Qed.
Lemma splitOn_encode rs : Forall (fun r => scalar r = true) rs -> splitOn 10%N (encodeAll rs) = map encodeAll (splitOn 10%N rs).
Proof.
  intros F. induction F as [|r rs V F IH]; [reflexivity|]. change (encodeAll (r :: rs)) with (encodeRune r ++ encodeAll rs). cbn [splitOn]. destruct (N.eqb_spec r 10) as [->|NE].
  - change (encodeRune 10 ++ encodeAll rs) with (10%N :: encodeAll rs). cbn [splitOn N.eqb]. rewrite IH. reflexivity.
  - rewrite splitOn_pre by (apply encode_no10; assumption). rewrite IH. pose proof (splitOn_nonempty rs) as NN. destruct (splitOn 10%N rs) as [|p ps]; [congruence|]. reflexivity.
Qed.
Lemma splitOn_forall (P : N -> Prop) rs : Forall P rs -> Forall (Forall P) (splitOn 10%N rs).
Proof.
  intros F. induction F as [|r rs V F IH]; cbn [splitOn]; [repeat constructor|]. destruct (r =? 10)%N; [constructor; [constructor|exact IH]|]. destruct (splitOn 10%N rs) as [|p ps]; [constructor; [constructor; [exact V|constructor]|constructor]|]. inversion_clear IH. constructor; [constructor; assumption|assumption].
Qed.
Lemma map_fix {A} (f : A -> A) l : map f l = l -> Forall (fun x => f x = x) l.
Proof. induction l as [|x l IH]; intros E; [constructor|]. cbn [map] in E. injection E as E1 E2. constructor; [exact E1|apply IH, E2]. Qed.
Lemma decode_no10 a s c r : decodeRune a s = (c, r) -> (c = 10%N -> a = 10%N) /\ (In 10%N r -> In 10%N s).
Proof.
  intros E. unfold decodeRune in E. destruct (N.ltb_spec a 128); [injection E as <- <-; auto|]. assert (RE : forall x, (runeError, x) = (c, r) -> (In 10%N x -> In 10%N s) -> (c = 10%N -> a = 10%N) /\ (In 10%N r -> In 10%N s)) by (intros x Q I; injection Q as <- <-; split; [discriminate|exact I]).
  destruct (N.ltb_spec a 194); [eauto|]. destruct (N.ltb_spec a 224).
  { destruct s as [|b s]; [eauto|]. destruct (contB b); [|eauto]. injection E as <- <-. split; [lia|right; assumption]. }
  destruct (N.ltb_spec a 240).
  { destruct s as [|b [|d s]]; [eauto|eauto|]. destruct (contB b && contB d && negb ((a =? 224)%N && (b <? 160)%N) && negb ((a =? 237)%N && (159 <? b)%N)) eqn:Q; [|eauto]. apply andb_true_iff in Q as [Q Q4]. apply andb_true_iff in Q as [Q Q3]. apply andb_true_iff in Q as [Q1 Q2]. apply contB_range in Q1, Q2.
    injection E as <- <-. split; [|right; right; assumption]. intros E. destruct (N.eqb_spec a 224) as [->|]; [|lia]. cbn [andb] in Q3. destruct (N.ltb_spec b 160); [discriminate|]. lia. }
  destruct (N.ltb_spec a 245); [|eauto]. destruct s as [|b [|d [|e s]]]; [eauto|eauto|eauto|]. destruct (contB b && contB d && contB e && negb ((a =? 240)%N && (b <? 144)%N) && negb ((a =? 244)%N && (143 <? b)%N)) eqn:Q; [|eauto]. apply andb_true_iff in Q as [Q Q5]. apply andb_true_iff in Q as [Q Q4]. apply andb_true_iff in Q as [Q Q3]. apply andb_true_iff in Q as [Q1 Q2]. apply contB_range in Q1, Q2, Q3.
  injection E as <- <-. split; [|right; right; right; assumption]. intros E. destruct (N.eqb_spec a 240) as [->|]; [|lia]. cbn [andb] in Q4. destruct (N.ltb_spec b 144); [discriminate|]. lia.
Qed.
Lemma runes_no10 f s : ~ In 10%N s -> ~ In 10%N (runesF f s).
Proof.
  revert s. induction f as [|f IH]; intros s N0; [intros []|]. destruct s as [|a s]; [intros []|]. cbn [runesF]. destruct (decodeRune a s) as [c r] eqn:D. apply decode_no10 in D as [D1 D2]. intros [Q|Q]; [apply N0; left; apply D1, Q|]. revert Q. apply IH. intros Q. apply N0. right. apply D2, Q.
Qed.
(* Loading and writing is the identity exactly on valid UTF-8 in which no line starts with a combining rune. *)
Theorem C68_write_partial : forall W b tb, W 32%N = 1 -> newBuffer W b = Ok tb -> (writeBuffer tb = b <-> validUtf8 b /\ noLeading W b).
Proof.
  intros W b tb SP E. unfold writeBuffer. rewrite (write_join _ _ _ true SP E). set (f := fun row => encodeAll (spaced W (runes row))).
  assert (SC : forall row, Forall (fun r => scalar r = true) (spaced W (runes row))). { intros row. unfold spaced. pose proof (runes_scalar (length row) row) as F. fold (runes row) in F. destruct (runes row) as [|r rs]; [constructor|]. destruct (W r =? 0); [constructor; [reflexivity|exact F]|exact F]. }
  assert (N10 : forall row, ~ In 10%N row -> ~ In 10%N (f row)). { intros row N0. apply encodeAll_no10; [apply SC|]. unfold spaced. pose proof (runes_no10 (length row) row N0) as F. fold (runes row) in F. destruct (runes row) as [|r rs]; [intros []|]. destruct (W r =? 0); [intros [Q|Q]; [discriminate|exact (F Q)]|exact F]. }
  assert (J : joinLines true (map f (splitOn 10%N b)) = b <-> map f (splitOn 10%N b) = splitOn 10%N b).
  { split; intros Q; [|rewrite Q, join_split; reflexivity]. rewrite <- Q at 2. symmetry. apply split_join; [intros Z0; apply map_eq_nil in Z0; exact (splitOn_nonempty b Z0)|]. apply Forall_map. eapply Forall_impl; [|apply splitOn_parts]. intros row. apply N10. }
  rewrite J. clear J E tb. split.
  - intros Q. apply map_fix in Q. split.
    + clear N10. assert (JS : joinLines true (splitOn 10%N b) = b) by apply (join_split b true). rewrite <- JS. assert (P : Forall validUtf8 (splitOn 10%N b)) by (eapply Forall_impl; [|exact Q]; intros row Z0; exists (spaced W (runes row)); split; [apply SC|symmetry; exact Z0]). clear Q.
      assert (G : forall fi rows, Forall validUtf8 rows -> validUtf8 (joinLines fi rows)). { intros fi rows F. revert fi. induction F as [|r rows (rs & S1 & S2) F IH]; intros fi; [exists []; split; [constructor|reflexivity]|]. cbn [joinLines]. destruct (IH false) as (rs' & S3 & S4). exists ((if fi then [] else [10%N]) ++ rs ++ rs'). split; [apply Forall_app; split; [destruct fi; [constructor|constructor; [reflexivity|constructor]]|apply Forall_app; auto]|]. rewrite !encodeAll_app, S2, S4. destruct fi; reflexivity. }
      apply G, P.
    + intros row r rs I ER Z0. rewrite Forall_forall in Q. specialize (Q row I). unfold f in Q. pose proof (runes_encode _ (SC row)) as RE. rewrite Q in RE. rewrite ER in RE. cbn [spaced] in RE. rewrite Z0 in RE. cbn [Nat.eqb] in RE. apply (f_equal (@length N)) in RE. cbn [length] in RE. lia.
  - intros [(rs & V & ->) NL]. unfold noLeading in NL. rewrite splitOn_encode in * by exact V. pose proof (splitOn_forall _ _ V) as VS. rewrite map_map. apply map_ext_in. intros row I. rewrite Forall_forall in VS. unfold f. rewrite runes_encode by (apply VS, I). f_equal. unfold spaced. destruct row as [|r row]; [reflexivity|]. destruct (W r =? 0) eqn:WR; [|reflexivity]. apply Nat.eqb_eq in WR. exfalso. eapply NL; [apply in_map, I| |exact WR]. apply runes_encode, VS, I.
Qed.
(* some of go-runewidth: combining acute accent 0, wide CJK 2 *)
Definition exW (r : N) : nat := if (r <? 32)%N || ((768 <=? r) && (r <? 880))%N then 0 else if (19968 <=? r)%N && (r <? 40960)%N then 2 else 1.
Definition exText : bytes := encodeAll [97; 769; 20013; 98; 10; 10; 99]%N.
Example C68_ex : exists tb, newBuffer exW exText = Ok tb /\ writeBuffer tb = exText /\ length tb = 3 /\ getCell tb 0 0 = ([97; 769]%N, 1) /\ getCell tb 1 0 = ([20013]%N, 2) /\ getCell tb 2 0 = ([20013]%N, 0) /\ getCell tb 3 0 = ([98]%N, 1) /\ lineLenCell tb 0 = 4.
Proof. eexists. split; [vm_compute; reflexivity|]. repeat split; vm_compute; reflexivity. Qed.
(* a line starting with a tab gets a space: the text written differs from the text loaded *)
Theorem C68_refuted : exists W b tb, W 32%N = 1 /\ (forall r, W r <= 2) /\ validUtf8 b /\ newBuffer W b = Ok tb /\ writeBuffer tb <> b.
Proof.
  exists exW, [9; 97]%N. eexists. split; [reflexivity|]. split; [intros r; unfold exW; destruct (_ || _); [lia|]; destruct (_ && _)%bool; lia|]. split; [exists [9; 97]%N; split; [repeat constructor|reflexivity]|]. split; [vm_compute; reflexivity|]. vm_compute. discriminate.
Qed.

(* ---------------- C69 ---------------- *)
(* what a row of the screen must show: each glyph at its cell, then blanks up to the edge *)
Fixpoint glyphsAt (x : nat) (gl : list glyph) : list (nat * N * list N) := match gl with [] => [] | g :: r => (x, snd (fst g), snd g) :: glyphsAt (x + gW g) r end.
Definition blanks (x ex : nat) : list (nat * N * list N) := map (fun i => (i, 32%N, [])) (seq x (ex - x)).
Definition noNul (gl : list glyph) : Prop := Forall (fun g => snd (fst g) <> 0%N) gl.
Lemma modelCell_at tb y l gl pre g post : nth_error tb y = Some l -> shows l gl -> gl = pre ++ g :: post -> gW g = 1 \/ gW g = 2 -> modelCell tb (width pre) y = Ok (snd (fst g), snd g, gW g).
Proof.
  intros NL (_ & _ & LC & SH) E WG. unfold modelCell. assert (YB : y < length tb) by (apply nth_error_Some; congruence). destruct (Nat.leb_spec (length tb) y); [lia|]. unfold lineLenCell. rewrite NL, LC. assert (WB : width pre + gW g <= width gl) by (rewrite E, width_app; cbn [width fold_right]; lia). destruct (Nat.leb_spec (width gl) (width pre)); [lia|]. cbn [orb]. unfold getCell. rewrite NL.
  destruct (SH pre g post E) as [_ SC]. specialize (SC 0 ltac:(lia)). rewrite Nat.add_0_r in SC. rewrite SC. cbn [Nat.eqb gRunes]. destruct WG as [-> | ->]; reflexivity.
Qed.
Lemma modelCell_out tb y x : length tb <= y \/ lineLenCell tb y <= x -> modelCell tb x y = Ok (0%N, [], 1).
Proof. intros H. unfold modelCell. destruct (Nat.leb_spec (length tb) y); [reflexivity|]. destruct (Nat.leb_spec (lineLenCell tb y) x); [reflexivity|]. lia. Qed.
Lemma drawRow_blanks steps tb y ex x : length tb <= y \/ lineLenCell tb y <= x -> ex - x < steps -> drawRow steps tb y ex x = Some (Ok (blanks x ex)).
Proof.
  revert x. induction steps as [|k IH]; intros x H L; [lia|]. cbn [drawRow]. destruct (Nat.ltb_spec x ex) as [LX|LX].
  - rewrite modelCell_out by exact H. rewrite IH by lia. cbn [N.eqb]. unfold blanks. replace (ex - x) with (S (ex - (x + 1))) by lia. cbn [seq map]. rewrite Nat.add_1_r. reflexivity.
  - unfold blanks. replace (ex - x) with 0 by lia. reflexivity.
Qed.
Lemma drawRow_glyphs tb y l gl ex : nth_error tb y = Some l -> shows l gl -> Forall (fun g => gW g = 1 \/ gW g = 2) gl -> noNul gl -> width gl <= ex ->
  forall post pre steps, gl = pre ++ post -> ex - width pre < steps -> drawRow steps tb y ex (width pre) = Some (Ok (glyphsAt (width pre) post ++ blanks (width gl) ex)).
Proof.
  intros NL SH WG NN LE. induction post as [|g post IH]; intros pre steps E L.
  - rewrite app_nil_r in E. subst pre. cbn [glyphsAt app]. apply drawRow_blanks; [|exact L]. right. unfold lineLenCell. rewrite NL. destruct SH as (_ & _ & -> & _). lia.
  - assert (G : gW g = 1 \/ gW g = 2) by (rewrite E in WG; apply Forall_app in WG as [_ WG]; exact (Forall_inv WG)). assert (Z0 : snd (fst g) <> 0%N) by (rewrite E in NN; apply Forall_app in NN as [_ NN]; exact (Forall_inv NN)).
    assert (WB : width pre + gW g <= width gl) by (rewrite E, width_app; cbn [width fold_right]; lia). destruct steps as [|k]; [lia|]. cbn [drawRow]. destruct (Nat.ltb_spec (width pre) ex); [|lia]. rewrite (modelCell_at _ _ _ _ _ _ _ NL SH E G).
    assert (WP : width pre + gW g = width (pre ++ [g])) by (rewrite width_app; cbn [width fold_right]; lia). rewrite WP. rewrite (IH (pre ++ [g]) k); [|rewrite <- app_assoc; exact E|lia]. destruct (N.eqb_spec (snd (fst g)) 0); [congruence|]. cbn [glyphsAt app]. rewrite WP. reflexivity.
Qed.
Lemma maxLine_ge tb l : In l tb -> length (lCells l) <= maxLineLenCell tb.
Proof.
  unfold maxLineLenCell. assert (M : forall tb m, m <= fold_left (fun m l => if m <? length (lCells l) then length (lCells l) else m) tb m). { induction tb0 as [|l0 tb0 IH]; intros m; [reflexivity|]. cbn [fold_left]. etransitivity; [|apply IH]. destruct (Nat.ltb_spec m (length (lCells l0))); lia. }
  generalize 0 as m. induction tb as [|l0 tb IH]; intros m I; [destruct I|]. cbn [fold_left]. destruct I as [->|I]; [|apply IH, I]. etransitivity; [|apply M]. destruct (Nat.ltb_spec m (length (lCells l))); lia.
Qed.
(* Drawing a row ends after at most one step per column and shows all glyphs in their cells and blanks elsewhere, for any text and window. *)
Theorem C69_row : forall W b tb vx y row, W 32%N = 1 -> (forall r, W r <= 2) -> W 0%N = 0 -> newBuffer W b = Ok tb -> nth_error (splitOn 10%N b) y = Some row ->
  exists gl, Forall (okGlyph W) gl /\ text gl = spaced W (runes row) /\ drawRow (S (drawWidth tb vx)) tb y (drawWidth tb vx) 0 = Some (Ok (glyphsAt 0 gl ++ blanks (width gl) (drawWidth tb vx))).
Proof.
  intros W b tb vx y row SP WM W0 E Q. destruct (C68_lines _ _ _ SP E) as [_ L]. destruct (L y row Q) as (l & gl & NL & SH & OK & T). exists gl. split; [exact OK|]. split; [exact T|]. assert (LE : width gl <= drawWidth tb vx). { destruct SH as (_ & _ & <- & _). apply nth_error_In in NL. pose proof (maxLine_ge tb l NL). unfold drawWidth. lia. }
  apply (drawRow_glyphs tb y l gl _ NL SH) with (pre := []); [| |exact LE|reflexivity|cbn [width fold_right]; lia].
  - eapply Forall_impl; [|exact OK]. intros g (A & _). exact A.
  - eapply Forall_impl; [|exact OK]. intros g (A & B & _) Z0. rewrite Z0, W0 in B. lia.
Qed.
Theorem C69_below : forall tb vx y, length tb <= y -> drawRow (S (drawWidth tb vx)) tb y (drawWidth tb vx) 0 = Some (Ok (blanks 0 (drawWidth tb vx))).
Proof. intros tb vx y L. apply drawRow_blanks; [left; exact L|lia]. Qed.
Example C69_ex : exists tb, newBuffer exW exText = Ok tb /\ drawRow 7 tb 0 6 0 = Some (Ok [(0, 97%N, [769%N]); (1, 20013%N, []); (3, 98%N, []); (4, 32%N, []); (5, 32%N, [])]).
Proof. eexists. split; vm_compute; reflexivity. Qed.
(* the loop does not end if it is entered in the second half of a wide character, so ending depends on the start at column 0 *)
Theorem C69_half : exists W b tb, newBuffer W b = Ok tb /\ forall steps, drawRow steps tb 0 4 2 = None.
Proof.
  exists exW, exText. eexists. split; [vm_compute; reflexivity|]. induction steps as [|k IH]; [reflexivity|]. cbn [drawRow]. match goal with |- context [modelCell ?t 2 0] => replace (modelCell t 2 0) with (Ok (runeError, @nil N, 0)) by (vm_compute; reflexivity) end. cbn [Nat.ltb Nat.leb Nat.add]. rewrite IH. reflexivity.
Qed.

(* ---------------- C70 ---------------- *)
Local Open Scope Z_scope.
Definition inside (e : editor) : Prop := (eX e = 0 \/ 0 <= eX e < eWidth e) /\ (eY e = 0 \/ 0 <= eY e < eHeight e).
Lemma limit_inside e : inside (limitCursor e).
Proof. unfold limitCursor, inside. cbn [eX eY eWidth eHeight]. destruct (Z.ltb_spec (eWidth e - 1) (eX e)), (Z.ltb_spec (eHeight e - 1) (eY e)); cbv zeta; split; match goal with |- context [?a <? 0] => destruct (Z.ltb_spec a 0) end; lia. Qed.
(* the content shrinks and the cursor stays behind its end *)
Theorem C70_refuted : exists W os e, edRun W os (initEd W) = Ok e /\ ~ inside e.
Proof.
  exists exW, [EContent exText; EEnd; EContent [97%N]]. eexists. split; [vm_compute; reflexivity|]. intros [_ [A|A]]; cbn [eY eHeight] in A; lia.
Qed.
(* Missing: directly after a change of the content.  After any movement the cursor is inside, whatever happened before. *)
Theorem C70_moved_partial : forall W os o e, (forall b, o <> EContent b) -> edRun W (os ++ [o]) (initEd W) = Ok e -> inside e.
Proof.
  intros W os o e NC. generalize (initEd W) as e0. induction os as [|o1 os IH]; intros e0 E; cbn [app edRun] in E.
  - destruct o; cbn [edStep rbind] in E; try (injection E as <-; apply limit_inside). exfalso. eapply NC. reflexivity.
  - destruct (edStep W o1 e0) as [e1| |]; try discriminate. cbn [rbind] in E. exact (IH e1 E).
Qed.
(* changes that do not shrink the text keep the cursor inside *)
Definition growing (W : N -> nat) (o : edOp) (e : editor) : Prop := match o with EContent b => forall tb, newBuffer W b = Ok tb -> eWidth e <= Z.of_nat (maxLineLenCell tb) /\ eHeight e <= Z.of_nat (length tb) | _ => True end.
Theorem C70_growing_partial : forall W o e e', inside e -> growing W o e -> edStep W o e = Ok e' -> inside e'.
Proof.
  intros W o e e' I G E. destruct o; cbn [edStep] in E; try (injection E as <-; apply limit_inside). unfold setContent in E. cbn [growing] in G. destruct (newBuffer W b) as [tb| |]; try discriminate. cbn [rbind] in E. injection E as <-. destruct (G tb eq_refl) as [A B]. destruct I as [I1 I2]. split; cbn [eX eY eWidth eHeight]; [destruct I1 as [I1|I1]|destruct I2 as [I2|I2]]; lia.
Qed.
Example C70_ex : exists e, edRun exW ([EContent exText; EEnd; EContent [97%N]] ++ [ELeft]) (initEd exW) = Ok e /\ eX e = 0 /\ eY e = 0.
Proof. eexists. split; [vm_compute; reflexivity|]. split; reflexivity. Qed.

Print Assumptions C68_lines.
Print Assumptions C68_loads.
Print Assumptions C68_write_partial.
Print Assumptions C68_refuted.
Print Assumptions C69_row.
Print Assumptions C69_below.
Print Assumptions C69_half.
Print Assumptions C70_refuted.
Print Assumptions C70_moved_partial.
Print Assumptions C70_growing_partial.
