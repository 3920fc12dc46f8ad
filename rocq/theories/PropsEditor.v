(* C202: the cursor of the editor is shown. *)
From Verif Require Import Base IdentityModel IdentityProofs Utf8Model TextBufferModel PropsTextBuffer EditorModel.
Local Open Scope nat_scope.

(* ---------------- Specification ---------------- *)
(* column x of row y is the second column of a wide character of the text b; rows, glyphs and widths are those of C68 *)
Definition secondHalf (W : N -> nat) (b : bytes) (x y : nat) : Prop :=
  exists row gl pre g post, nth_error (splitOn 10%N b) y = Some row /\ Forall (okGlyph W) gl /\ text gl = spaced W (runes row) /\
    gl = pre ++ g :: post /\ gW g = 2 /\ x = width pre + 1.
(* the cells that are drawn reversed *)
Definition reversed (l : list drawn) : list (nat * nat) := map (fun d => (dX d, dY d)) (filter dRev l).
(* the text shown last *)
Fixpoint lastText (os : list edOp) (b : bytes) : bytes := match os with [] => b | EContent b' :: r => lastText r b' | _ :: r => lastText r b end.
(* a width function as that of the library: blanks have width 1, no rune is wider than 2, NUL has no width *)
Definition widths (W : N -> nat) : Prop := W 32%N = 1 /\ (forall r, W r <= 2) /\ W 0%N = 0.

(* ---------------- Proofs ---------------- *)
(* a text is made of glyphs in one way *)
Lemma zeros_split W (a b a' b' : list N) : Forall (fun c => W c = 0) a -> Forall (fun c => W c = 0) a' ->
  (forall c r, b = c :: r -> W c <> 0) -> (forall c r, b' = c :: r -> W c <> 0) -> a ++ b = a' ++ b' -> a = a' /\ b = b'.
Proof.
  revert a'. induction a as [|x a IH]; intros a' F F' B B' E; destruct a' as [|x' a']; cbn [app] in E.
  - split; [reflexivity|exact E].
  - elim (B x' (a' ++ b') E). exact (Forall_inv F').
  - symmetry in E. elim (B' x (a ++ b) E). exact (Forall_inv F).
  - injection E as -> E. destruct (IH a' (Forall_inv_tail F) (Forall_inv_tail F') B B' E) as (-> & ->). split; reflexivity.
Qed.
Lemma text_head W gl c r : Forall (okGlyph W) gl -> text gl = c :: r -> W c <> 0.
Proof.
  intros F E. destruct gl as [|g gl]; [discriminate E|]. rewrite text_cons in E. unfold gRunes in E. cbn [app] in E. injection E as <- _.
  destruct (Forall_inv F) as (A & B & _). rewrite B. lia.
Qed.
Lemma glyphs_unique W gl : forall gl', Forall (okGlyph W) gl -> Forall (okGlyph W) gl' -> text gl = text gl' -> gl = gl'.
Proof.
  induction gl as [|g gl IH]; intros gl' F F' E; destruct gl' as [|g' gl']; [reflexivity| | |]; rewrite ?text_cons in E.
  - discriminate E.
  - discriminate E.
  - unfold gRunes in E. cbn [app] in E. destruct g as [[w c] cs], g' as [[w' c'] cs']. cbn [fst snd] in E. injection E as EC E.
    destruct (Forall_inv F) as (_ & A & B). destruct (Forall_inv F') as (_ & A' & B'). unfold gW in A, A'. cbn [fst snd] in A, B, A', B'.
    destruct (zeros_split W cs (text gl) cs' (text gl') B B') as (E1 & E2); [| |exact E|].
    + intros x r X. exact (text_head W gl x r (Forall_inv_tail F) X).
    + intros x r X. exact (text_head W gl' x r (Forall_inv_tail F') X).
    + rewrite (IH gl' (Forall_inv_tail F) (Forall_inv_tail F') E2). congruence.
Qed.

Definition addMark (cur : option (Z * Z)) (y : nat) (c : nat * N * list N) : drawn := mkDrawn (fst (fst c)) y (snd (fst c)) (snd c) (markOf cur (fst (fst c)) y).
Lemma drawRowC_drawRow steps tb cur y ex : forall x, drawRowC steps tb cur y ex x =
  match drawRow steps tb y ex x with Some (Ok l) => Some (Ok (map (addMark cur y) l)) | Some (Err s) => Some (Err s) | Some Panic => Some Panic | None => None end.
Proof.
  induction steps as [|k IH]; intros x; [reflexivity|]. cbn [drawRowC drawRow]. destruct (x <? ex); [|reflexivity].
  destruct (modelCell tb x y) as [[[ch comb] wid]|s|]; [|reflexivity|reflexivity]. rewrite IH. destruct (drawRow k tb y ex (x + wid)) as [[l|s|]|]; reflexivity.
Qed.

(* the column is not the start of a glyph *)
Fixpoint halfB (x : nat) (gl : list glyph) (cx : nat) : bool :=
  match gl with [] => false | g :: r => if cx =? x then false else if cx <? x + gW g then true else halfB (x + gW g) r cx end.
Lemma halfB_spec gl : Forall (fun g => gW g = 1 \/ gW g = 2) gl -> forall x cx, x <= cx ->
  (halfB x gl cx = true <-> exists pre g post, gl = pre ++ g :: post /\ gW g = 2 /\ cx = x + width pre + 1).
Proof.
  induction gl as [|g gl IH]; intros F x cx L; cbn [halfB].
  - split; [discriminate|]. intros ([|q1 q2] & q3 & q4 & E & _); discriminate E.
  - pose proof (Forall_inv F) as G. cbv beta in G. destruct (Nat.eqb_spec cx x) as [->|N].
    + split; [discriminate|]. intros (pre & g' & post & E & W2 & X). lia.
    + destruct (Nat.ltb_spec cx (x + gW g)) as [LT|GE].
      * split; [|reflexivity]. intros _. exists [], g, gl. split; [reflexivity|]. cbn [width fold_right]. split; lia.
      * rewrite (IH (Forall_inv_tail F) (x + gW g) cx GE). split.
        -- intros (pre & g' & post & E & W2 & X). exists (g :: pre), g', post. rewrite E. split; [reflexivity|]. split; [exact W2|]. cbn [width fold_right]. fold (width pre). lia.
        -- intros (pre & g' & post & E & W2 & X). destruct pre as [|h pre]; cbn [app] in E; injection E as E1 E2.
           ++ cbn [width fold_right] in X. subst g'. lia.
           ++ exists pre, g', post. split; [exact E2|]. split; [exact W2|]. cbn [width fold_right] in X. fold (width pre) in X. subst h. lia.
Qed.
Definition atCol (cx : nat) (c : nat * N * list N) : bool := fst (fst c) =? cx.
Definition colOf (c : nat * N * list N) : nat := fst (fst c).
Lemma seq_col cx : forall n a, map colOf (filter (atCol cx) (map (fun i => (i, 32%N, [])) (seq a n))) = if (a <=? cx) && (cx <? a + n) then [cx] else [].
Proof.
  induction n as [|n IH]; intros a; cbn [seq map filter].
  - destruct (Nat.leb_spec a cx), (Nat.ltb_spec cx (a + 0)); cbn [andb]; try reflexivity. lia.
  - unfold atCol at 1. cbn [fst]. destruct (Nat.eqb_spec a cx) as [->|N]; cbn [map]; rewrite IH.
    + destruct (Nat.leb_spec (S cx) cx); [lia|]. cbn [andb colOf fst]. destruct (Nat.leb_spec cx cx), (Nat.ltb_spec cx (cx + S n)); cbn [andb]; try lia. reflexivity.
    + destruct (Nat.leb_spec (S a) cx), (Nat.leb_spec a cx), (Nat.ltb_spec cx (S a + n)), (Nat.ltb_spec cx (a + S n)); cbn [andb]; try reflexivity; lia.
Qed.
Lemma glyphs_before cx gl : Forall (fun g => gW g = 1 \/ gW g = 2) gl -> forall x, cx < x -> filter (atCol cx) (glyphsAt x gl) = [].
Proof.
  induction gl as [|g gl IH]; intros F x L; [reflexivity|]. pose proof (Forall_inv F) as G. cbv beta in G. cbn [glyphsAt filter]. unfold atCol at 1. cbn [fst]. destruct (Nat.eqb_spec x cx); [lia|].
  apply IH; [exact (Forall_inv_tail F)|]. lia.
Qed.
Lemma row_col cx ex gl : Forall (fun g => gW g = 1 \/ gW g = 2) gl -> forall x, x <= cx -> cx < ex ->
  map colOf (filter (atCol cx) (glyphsAt x gl ++ blanks (x + width gl) ex)) = if halfB x gl cx then [] else [cx].
Proof.
  induction gl as [|g gl IH]; intros F x L LE.
  - cbn [glyphsAt app halfB width fold_right]. unfold blanks. rewrite seq_col. destruct (Nat.leb_spec (x + 0) cx), (Nat.ltb_spec cx (x + 0 + (ex - (x + 0)))); cbn [andb]; try lia. reflexivity.
  - pose proof (Forall_inv F) as G. cbv beta in G. pose proof (Forall_inv_tail F) as F'. cbn [glyphsAt halfB]. cbn [app filter]. unfold atCol at 1. cbn [fst].
    cbn [width fold_right]. fold (width gl). rewrite (Nat.eqb_sym x cx). destruct (Nat.eqb_spec cx x) as [->|N].
    + cbn [map colOf fst]. rewrite filter_app, (glyphs_before x gl F') by lia. cbn [app]. unfold blanks. rewrite seq_col.
      destruct (Nat.leb_spec (x + (gW g + width gl)) x); [lia|]. reflexivity.
    + destruct (Nat.ltb_spec cx (x + gW g)) as [LT|GE].
      * rewrite filter_app, (glyphs_before cx gl F') by lia. cbn [app]. unfold blanks. rewrite seq_col. destruct (Nat.leb_spec (x + (gW g + width gl)) cx); [lia|]. reflexivity.
      * rewrite <- (IH F' (x + gW g) GE LE). replace (x + gW g + width gl) with (x + (gW g + width gl)) by lia. reflexivity.
Qed.

(* the reversed cells of a row *)
Lemma rev_row_none l y : reversed (map (addMark None y) l) = [].
Proof. unfold reversed. induction l as [|c l IH]; [reflexivity|]. cbn [map filter addMark markOf dRev]. exact IH. Qed.
Lemma rev_row_other cx cy l y : Z.of_nat y <> cy -> reversed (map (addMark (Some (cx, cy)) y) l) = [].
Proof.
  intros N. unfold reversed. induction l as [|c l IH]; [reflexivity|]. cbn [map filter addMark markOf dRev]. destruct (Z.eqb_spec (Z.of_nat y) cy); [congruence|].
  rewrite andb_false_r. exact IH.
Qed.
Lemma rev_row_this cx l y : reversed (map (addMark (Some (Z.of_nat cx, Z.of_nat y)) y) l) = map (fun x => (x, y)) (map colOf (filter (atCol cx) l)).
Proof.
  unfold reversed. induction l as [|c l IH]; [reflexivity|]. cbn [map filter addMark markOf dRev]. rewrite Z.eqb_refl, andb_true_r. unfold atCol at 1.
  destruct (Nat.eqb_spec (fst (fst c)) cx) as [E|N].
  - rewrite E, Z.eqb_refl. cbn [map dX dY]. rewrite IH. unfold colOf, addMark. cbn [dX dY]. rewrite E. reflexivity.
  - destruct (Z.eqb_spec (Z.of_nat (fst (fst c))) (Z.of_nat cx)) as [E|_]; [lia|]. exact IH.
Qed.
Lemma reversed_app a b : reversed (a ++ b) = reversed a ++ reversed b.
Proof. unfold reversed. rewrite filter_app, map_app. reflexivity. Qed.

(* what each row draws *)
Lemma row_drawn W b tb vx y : widths W -> newBuffer W b = Ok tb -> exists gl, Forall (okGlyph W) gl /\
  (forall row, nth_error (splitOn 10%N b) y = Some row -> text gl = spaced W (runes row)) /\ (nth_error (splitOn 10%N b) y = None -> gl = []) /\
  drawRow (S (drawWidth tb vx)) tb y (drawWidth tb vx) 0 = Some (Ok (glyphsAt 0 gl ++ blanks (width gl) (drawWidth tb vx))).
Proof.
  intros (SP & WM & W0) E. destruct (nth_error (splitOn 10%N b) y) as [row|] eqn:Q.
  - destruct (C69_row W b tb vx y row SP WM W0 E Q) as (gl & OK & T & D). exists gl. split; [exact OK|]. split; [intros r X; injection X as <-; exact T|]. split; [discriminate|exact D].
  - exists []. split; [constructor|]. split; [discriminate|]. split; [reflexivity|]. destruct (C68_lines _ _ _ SP E) as (L & _). apply C69_below. rewrite L. apply nth_error_None, Q.
Qed.
Lemma rows_drawn W b tb cur vx : widths W -> newBuffer W b = Ok tb -> forall n y, exists l, drawRowsC n tb cur (drawWidth tb vx) y = Some (Ok l) /\
  (cur = None -> reversed l = []) /\
  (forall cx cy, cur = Some (Z.of_nat cx, Z.of_nat cy) -> cx < drawWidth tb vx ->
     if (y <=? cy) && (cy <? y + n) then (secondHalf W b cx cy -> reversed l = []) /\ (~ secondHalf W b cx cy -> reversed l = [(cx, cy)]) else reversed l = []).
Proof.
  intros WW E. induction n as [|n IH]; intros y; cbn [drawRowsC].
  - exists []. split; [reflexivity|]. split; [reflexivity|]. intros cx cy _ _. destruct (Nat.leb_spec y cy), (Nat.ltb_spec cy (y + 0)); cbn [andb]; try reflexivity. lia.
  - destruct (row_drawn W b tb vx y WW E) as (gl & OK & T & T0 & D). rewrite drawRowC_drawRow, D. destruct (IH (S y)) as (l & -> & H1 & H2).
    eexists. split; [reflexivity|]. split; [intros C0; subst cur; rewrite reversed_app, rev_row_none, (H1 eq_refl); reflexivity|].
    intros cx cy C0 LX. specialize (H2 cx cy C0 LX). subst cur. rewrite reversed_app.
    destruct (Nat.eq_dec y cy) as [->|N].
    + destruct (Nat.leb_spec (S cy) cy); [lia|]. cbn [andb] in H2. rewrite H2, app_nil_r, rev_row_this.
      assert (F : Forall (fun g => gW g = 1 \/ gW g = 2) gl) by (eapply Forall_impl; [|exact OK]; intros g (A & _); exact A).
      pose proof (row_col cx (drawWidth tb vx) gl F 0 (Nat.le_0_l cx) LX) as RC. cbn [Nat.add] in RC. rewrite RC.
      destruct (Nat.leb_spec cy cy), (Nat.ltb_spec cy (cy + S n)); cbn [andb]; try lia.
      assert (HS : halfB 0 gl cx = true <-> secondHalf W b cx cy).
      { rewrite (halfB_spec gl F 0 cx (Nat.le_0_l cx)). split.
        - intros (pre & g & post & EG & W2 & X). destruct (nth_error (splitOn 10%N b) cy) as [row|] eqn:Q.
          + exists row, gl, pre, g, post. split; [exact Q|]. split; [exact OK|]. split; [exact (T row eq_refl)|]. split; [exact EG|]. split; [exact W2|exact X].
          + rewrite (T0 eq_refl) in EG. destruct pre; discriminate EG.
        - intros (row & gl' & pre & g & post & Q & OK' & T' & EG & W2 & X). exists pre, g, post. split; [|split; [exact W2|exact X]].
          rewrite <- EG. apply (glyphs_unique W); [exact OK|exact OK'|]. rewrite T'. exact (T row Q). }
      destruct (halfB 0 gl cx).
      * split; [reflexivity|]. intros NH. elim NH. apply HS. reflexivity.
      * split; [|reflexivity]. intros SH. apply HS in SH. discriminate SH.
    + rewrite rev_row_other by lia. cbn [app].
      destruct (Nat.leb_spec (S y) cy), (Nat.leb_spec y cy), (Nat.ltb_spec cy (S y + n)), (Nat.ltb_spec cy (y + S n)); cbn [andb] in *; try exact H2; lia.
Qed.

(* the editor holds the text shown last *)
Lemma run_text W os : forall e e' b, edRun W os e = Ok e' -> newBuffer W b = Ok (eTb e) -> (eWidth e <= Z.of_nat (maxLineLenCell (eTb e)))%Z -> (eHeight e <= Z.of_nat (length (eTb e)))%Z ->
  newBuffer W (lastText os b) = Ok (eTb e') /\ (eWidth e' <= Z.of_nat (maxLineLenCell (eTb e')))%Z /\ (eHeight e' <= Z.of_nat (length (eTb e')))%Z.
Proof.
  induction os as [|o os IH]; intros e e' b R B LW LH; cbn [edRun lastText] in *; [injection R as <-; auto|].
  destruct o as [b'|x y|x y| | | | |vy|vy| |]; cbn [edStep rbind] in R;
    try (refine (IH _ e' b R _ _ _); [exact B|exact LW|exact LH]).
  unfold setContent in R. destruct (newBuffer W b') as [tb| |] eqn:E; cbn [rbind] in R; try discriminate R.
  refine (IH _ e' b' R _ _ _); cbn [eTb eWidth eHeight]; [exact E|lia|lia].
Qed.

(* After any changes of the text and movements that leave the cursor inside the text (C70 tells when), drawing in any window ends.
   If the cursor is enabled and not hidden, it is shown at its place and nowhere else, except in the second column of a wide character.
   Missing: the cursor in the second column of a wide character (C202_half, C202_refuted). *)
Theorem C202_partial : forall W os e vx vy, widths W -> edRun W os (initEd W) = Ok e -> inside e -> 0 < vx -> 0 < vy ->
  ~ secondHalf W (lastText os []) (Z.to_nat (eX e)) (Z.to_nat (eY e)) ->
  exists l, draw e true false vx vy = Some (Ok l) /\ reversed l = [(Z.to_nat (eX e), Z.to_nat (eY e))].
Proof.
  intros W os e vx vy WW R I VX VY NH.
  destruct (run_text W os (initEd W) e [] R) as (B & LW & LH); [reflexivity|cbn; lia|cbn; lia|].
  destruct (rows_drawn W _ (eTb e) (Some (eX e, eY e)) vx WW B (drawHeight (eTb e) vy) 0) as (l & D & _ & H).
  exists l. split; [exact D|]. destruct I as (IX & IY).
  specialize (H (Z.to_nat (eX e)) (Z.to_nat (eY e))). rewrite !Z2Nat.id in H by lia. specialize (H eq_refl).
  assert (LX : Z.to_nat (eX e) < drawWidth (eTb e) vx) by (unfold drawWidth; lia). specialize (H LX).
  assert (LY : Z.to_nat (eY e) < drawHeight (eTb e) vy) by (unfold drawHeight; lia).
  destruct (Nat.ltb_spec (Z.to_nat (eY e)) (0 + drawHeight (eTb e) vy)); [|cbn [Nat.add] in *; lia]. cbn [Nat.leb andb] in H. apply H, NH.
Qed.
(* In the second column of a wide character the cursor is never shown. *)
Theorem C202_half : forall W os e vx vy, widths W -> edRun W os (initEd W) = Ok e -> inside e -> 0 < vx -> 0 < vy ->
  secondHalf W (lastText os []) (Z.to_nat (eX e)) (Z.to_nat (eY e)) ->
  exists l, draw e true false vx vy = Some (Ok l) /\ reversed l = [].
Proof.
  intros W os e vx vy WW R I VX VY SH.
  destruct (run_text W os (initEd W) e [] R) as (B & LW & LH); [reflexivity|cbn; lia|cbn; lia|].
  destruct (rows_drawn W _ (eTb e) (Some (eX e, eY e)) vx WW B (drawHeight (eTb e) vy) 0) as (l & D & _ & H).
  exists l. split; [exact D|]. destruct I as (IX & IY).
  specialize (H (Z.to_nat (eX e)) (Z.to_nat (eY e))). rewrite !Z2Nat.id in H by lia. specialize (H eq_refl).
  assert (LX : Z.to_nat (eX e) < drawWidth (eTb e) vx) by (unfold drawWidth; lia). specialize (H LX).
  destruct ((0 <=? Z.to_nat (eY e)) && (Z.to_nat (eY e) <? 0 + drawHeight (eTb e) vy)); [apply H, SH|exact H].
Qed.
(* Without a cursor, or with a hidden one, nothing is marked; and the mark is all that the cursor changes. *)
Theorem C202_hidden : forall W os e en hid vx vy, widths W -> edRun W os (initEd W) = Ok e ->
  exists l l', draw e en hid vx vy = Some (Ok l) /\ draw e false false vx vy = Some (Ok l') /\
    map (fun d => (dX d, dY d, dCh d, dComb d)) l = map (fun d => (dX d, dY d, dCh d, dComb d)) l' /\ (en = false \/ hid = true -> reversed l = []).
Proof.
  intros W os e en hid vx vy WW R. destruct (run_text W os (initEd W) e [] R) as (B & _ & _); [reflexivity|cbn; lia|cbn; lia|].
  unfold draw. set (cur := if en && negb hid then Some (eX e, eY e) else None).
  destruct (rows_drawn W _ (eTb e) cur vx WW B (drawHeight (eTb e) vy) 0) as (l & D & H & _). rewrite D. cbn [andb].
  destruct (rows_drawn W _ (eTb e) None vx WW B (drawHeight (eTb e) vy) 0) as (l' & D' & _ & _). exists l, l'. split; [reflexivity|]. split; [exact D'|]. split.
  - clear H. revert l l' D D'. generalize 0. induction (drawHeight (eTb e) vy) as [|n IH]; intros y l l' D D'; cbn [drawRowsC] in D, D'; [congruence|].
    rewrite drawRowC_drawRow in D, D'. destruct (drawRow (S (drawWidth (eTb e) vx)) (eTb e) y (drawWidth (eTb e) vx) 0) as [[r|s|]|]; try discriminate D.
    destruct (drawRowsC n (eTb e) cur (drawWidth (eTb e) vx) (S y)) as [[m|s|]|] eqn:E1; try discriminate D.
    destruct (drawRowsC n (eTb e) None (drawWidth (eTb e) vx) (S y)) as [[m'|s|]|] eqn:E2; try discriminate D'.
    injection D as <-. injection D' as <-. rewrite !map_app, (IH (S y) m m' E1 E2). f_equal. rewrite !map_map. reflexivity.
  - intros Q. apply H. unfold cur. destruct Q as [-> | ->]; [reflexivity|]. rewrite andb_false_r. reflexivity.
Qed.
(* The keys leave the text as it is and the cursor inside; so with the theorems above every key press ends with a drawing of the editor. *)
Theorem C202_keys : forall W vy ks e, inside e -> exists os e', pressKeys W vy ks e = Ok e' /\ edRun W os e = Ok e' /\ (forall b, ~ In (EContent b) os) /\
  inside e' /\ eTb e' = eTb e.
Proof.
  intros W vy ks. induction ks as [|k ks IH]; intros e I; cbn [pressKeys].
  - exists [], e. split; [reflexivity|]. split; [reflexivity|]. split; [intros b []|]. split; [exact I|reflexivity].
  - assert (K : match keyOp vy k with None => True | Some o => (forall b, EContent b <> o) /\ exists e1, edStep W o e = Ok e1 /\ inside e1 /\ eTb e1 = eTb e end).
    { assert (M : forall o, (forall b, EContent b <> o) -> (forall b, EContent b <> o) /\ exists e1, edStep W o e = Ok e1 /\ inside e1 /\ eTb e1 = eTb e).
      { intros o NC. split; [exact NC|]. destruct o as [b'|x y|x y| | | | |v|v| |]; cbn [edStep]; try (elim (NC b'); reflexivity);
          (eexists; split; [reflexivity|]; split; [apply limit_inside|reflexivity]). }
      destruct k as [| | | | | | | | | | | | |r|]; cbn [keyOp]; try exact Logic.I; try (apply M; discriminate).
      repeat match goal with |- context [if ?c then _ else _] => destruct c end; try exact Logic.I; apply M; discriminate. }
    destruct (keyOp vy k) as [o|].
    + destruct K as (NC & e1 & E & I1 & T1). rewrite E. cbn [rbind]. destruct (IH e1 I1) as (os & e' & P & R & N & I' & T'). exists (o :: os), e'.
      split; [exact P|]. cbn [edRun]. rewrite E. cbn [rbind]. split; [exact R|]. split; [|split; [exact I'|congruence]].
      intros b [X|X]; [elim (NC b); symmetry; exact X|exact (N b X)].
    + apply IH, I.
Qed.
(* Every cell of the text area can be reached, from above and from below, with the arrow keys and with the keys that stand for them. *)
Definition moveTo (x y : Z) (e : editor) : editor := mkEd (eTb e) (eWidth e) (eHeight e) x y.
Lemma press_app W vy a b e e1 : pressKeys W vy a e = Ok e1 -> pressKeys W vy (a ++ b) e = pressKeys W vy b e1.
Proof.
  revert e. induction a as [|k a IH]; intros e E; cbn [pressKeys app] in *; [injection E as ->; reflexivity|].
  destruct (keyOp vy k) as [o|]; [|apply IH, E]. destruct (edStep W o e) as [e2| |]; cbn [rbind] in *; try discriminate E. apply IH, E.
Qed.
Lemma press_repeat W vy k dx dy n : forall e, (forall e, match keyOp vy k with Some o => edStep W o e = Ok (moveCursor dx dy e) | None => False end) ->
  (forall j, 0 <= j <= Z.of_nat n -> 0 <= eX e + j * dx < eWidth e /\ 0 <= eY e + j * dy < eHeight e)%Z ->
  pressKeys W vy (repeat k n) e = Ok (moveTo (eX e + Z.of_nat n * dx) (eY e + Z.of_nat n * dy) e).
Proof.
  induction n as [|n IH]; intros e K H.
  - cbn [repeat pressKeys]. rewrite !Z.add_0_r. destruct e; reflexivity.
  - cbn [repeat pressKeys]. pose proof (K e) as Ke. destruct (keyOp vy k) as [o|]; [|elim Ke]. rewrite Ke. cbn [rbind].
    assert (M : moveCursor dx dy e = moveTo (eX e + dx) (eY e + dy) e).
    { pose proof (H 1%Z ltac:(lia)) as B. rewrite !Z.mul_1_l in B. unfold moveCursor, limitCursor, moveTo. cbn [eTb eWidth eHeight eX eY].
      destruct (Z.ltb_spec (eWidth e - 1) (eX e + dx)), (Z.ltb_spec (eHeight e - 1) (eY e + dy)); try lia.
      destruct (Z.ltb_spec (eX e + dx) 0), (Z.ltb_spec (eY e + dy) 0); try lia. reflexivity. }
    rewrite M, IH; [|exact K|].
    + unfold moveTo. cbn [eTb eWidth eHeight eX eY]. f_equal. f_equal; lia.
    + intros j J. unfold moveTo. cbn [eWidth eHeight eX eY]. specialize (H (j + 1)%Z ltac:(lia)). lia.
Qed.
Definition upKey (k : tkey) : Prop := In k [KUp; KCtrlP; KRune 107].
Definition downKey (k : tkey) : Prop := In k [KDown; KCtrlN; KRune 106].
Definition leftKey (k : tkey) : Prop := In k [KLeft; KCtrlB; KRune 104].
Definition rightKey (k : tkey) : Prop := In k [KRight; KCtrlF; KRune 108].
Ltac keyTac H := intros e0; unfold upKey, downKey, leftKey, rightKey in H; cbn [In] in H; decompose [or] H; try contradiction; subst; cbn; reflexivity.
Theorem C202_reach : forall W vy e x y kd kr ku kl kh, (0 <= x < eWidth e)%Z -> (0 <= y < eHeight e)%Z ->
  downKey kd -> rightKey kr -> upKey ku -> leftKey kl -> In kh [KHome; KRune 103] ->
  pressKeys W vy (kh :: repeat kd (Z.to_nat y) ++ repeat kr (Z.to_nat x)) e = Ok (moveTo x y e) /\
  pressKeys W vy (KEnd :: repeat ku (Z.to_nat (eHeight e - 1 - y)) ++ repeat kl (Z.to_nat (eWidth e - 1 - x))) e = Ok (moveTo x y e).
Proof.
  intros W vy e x y kd kr ku kl kh X Y D R Up L Hm. split.
  - assert (H0 : pressKeys W vy [kh] e = Ok (moveTo 0 0 e)).
    { assert (S0 : setCursor 0 0 e = moveTo 0 0 e).
      { unfold setCursor, limitCursor, moveTo. cbn [eTb eWidth eHeight eX eY]. destruct (Z.ltb_spec (eWidth e - 1) 0), (Z.ltb_spec (eHeight e - 1) 0); try lia. reflexivity. }
      cbn [In] in Hm. rewrite <- S0. destruct Hm as [<-|[<-|[]]]; reflexivity. }
    change (kh :: ?l) with ([kh] ++ l). rewrite (press_app W vy [kh] _ e _ H0).
    rewrite (press_app W vy (repeat kd (Z.to_nat y)) _ _ (moveTo 0 y e)).
    + rewrite (press_repeat W vy kr 1 0); [|keyTac R|unfold moveTo; cbn [eX eY eWidth eHeight]; intros j J; lia]. unfold moveTo. cbn [eTb eWidth eHeight eX eY]. f_equal. f_equal; lia.
    + rewrite (press_repeat W vy kd 0 1); [|keyTac D|unfold moveTo; cbn [eX eY eWidth eHeight]; intros j J; lia]. unfold moveTo. cbn [eTb eWidth eHeight eX eY]. f_equal. f_equal; lia.
  - assert (H0 : pressKeys W vy [KEnd] e = Ok (moveTo (eWidth e - 1) (eHeight e - 1) e)).
    { cbn [pressKeys keyOp edStep rbind]. unfold setCursor, limitCursor, moveTo. cbn [eTb eWidth eHeight eX eY].
      destruct (Z.ltb_spec (eWidth e - 1) (eWidth e)), (Z.ltb_spec (eHeight e - 1) (eHeight e)); try lia.
      destruct (Z.ltb_spec (eWidth e - 1) 0), (Z.ltb_spec (eHeight e - 1) 0); try lia. reflexivity. }
    change (KEnd :: ?l) with ([KEnd] ++ l). rewrite (press_app W vy [KEnd] _ e _ H0).
    rewrite (press_app W vy (repeat ku (Z.to_nat (eHeight e - 1 - y))) _ _ (moveTo (eWidth e - 1) y e)).
    + rewrite (press_repeat W vy kl (-1) 0); [|keyTac L|unfold moveTo; cbn [eX eY eWidth eHeight]; intros j J; lia]. unfold moveTo. cbn [eTb eWidth eHeight eX eY]. f_equal. f_equal; lia.
    + rewrite (press_repeat W vy ku 0 (-1)); [|keyTac Up|unfold moveTo; cbn [eX eY eWidth eHeight]; intros j J; lia]. unfold moveTo. cbn [eTb eWidth eHeight eX eY]. f_equal. f_equal; lia.
Qed.
(* A page down moves by the height of the window, or to the last row; a page up to the first row at most. *)
Theorem C202_pages : forall W vy e k, inside e -> (0 < vy)%Z -> (0 < eHeight e)%Z -> (In k [KPgDn; KRune 32] ->
    pressKeys W vy [k] e = Ok (moveTo (eX e) (Z.min (eY e + vy) (eHeight e - 1)) e)) /\
  pressKeys W vy [KPgUp] e = Ok (moveTo (eX e) (Z.max (eY e - vy) 0) e).
Proof.
  intros W vy e k (IX & IY) V H. split.
  - intros K. assert (E : pressKeys W vy [k] e = Ok (moveCursor 0 vy e)) by (cbn [In] in K; decompose [or] K; try contradiction; subst k; reflexivity).
    rewrite E. f_equal. unfold moveCursor, limitCursor, moveTo. cbn [eTb eWidth eHeight eX eY].
    destruct (Z.ltb_spec (eWidth e - 1) (eX e + 0)), (Z.ltb_spec (eHeight e - 1) (eY e + vy)); repeat match goal with |- context [(?a <? 0)%Z] => destruct (Z.ltb_spec a 0) end; f_equal; lia.
  - cbn [pressKeys keyOp edStep rbind]. f_equal. unfold moveCursor, limitCursor, moveTo. cbn [eTb eWidth eHeight eX eY].
    destruct (Z.ltb_spec (eWidth e - 1) (eX e + 0)), (Z.ltb_spec (eHeight e - 1) (eY e + - vy)); repeat match goal with |- context [(?a <? 0)%Z] => destruct (Z.ltb_spec a 0) end; f_equal; lia.
Qed.
(* Other keys do nothing: no text can be entered. *)
Theorem C202_others : forall W vy e k, ~ upKey k -> ~ downKey k -> ~ leftKey k -> ~ rightKey k -> ~ In k [KHome; KRune 103; KEnd; KPgUp; KPgDn; KRune 32] ->
  pressKeys W vy [k] e = Ok e.
Proof.
  intros W vy e k U0 D L R O. unfold upKey, downKey, leftKey, rightKey in *. cbn [In] in *. cbn [pressKeys].
  destruct k as [| | | | | | | | | | | | |r|]; cbn [keyOp]; try reflexivity; try tauto.
  repeat match goal with |- context [if (?a =? ?b)%N then _ else _] => destruct (N.eqb_spec a b); [subst a; tauto|] end. reflexivity.
Qed.
(* Full statement (false): an enabled cursor that is not hidden and inside the text is shown.  A text of one wide character, and the key
   for one step to the right. *)
Definition exWide : list edOp := [EContent (encodeAll [20013]%N)].
Lemma exW_widths : widths exW.
Proof.
  split; [reflexivity|]. split; [|reflexivity]. intros r. unfold exW. destruct ((r <? 32)%N || ((768 <=? r) && (r <? 880))%N); [lia|]. destruct ((19968 <=? r)%N && (r <? 40960)%N); lia.
Qed.
Theorem C202_refuted : exists W os e e' l, widths W /\ edRun W os (initEd W) = Ok e /\ pressKeys W 24 [KRight] e = Ok e' /\ inside e' /\
  draw e' true false 80 24 = Some (Ok l) /\ reversed l = [].
Proof.
  exists exW, exWide. eexists. eexists. eexists. split; [exact exW_widths|]. split; [vm_compute; reflexivity|]. split; [vm_compute; reflexivity|].
  split; [split; right; cbn [eX eY eWidth eHeight]; lia|]. split; [vm_compute; reflexivity|]. vm_compute. reflexivity.
Qed.
Example C202_ex : exists e l, edRun exW [EContent exText; EEnd; EUp; EHome; ERight] (initEd exW) = Ok e /\ inside e /\ draw e true false 6 4 = Some (Ok l) /\ reversed l = [(1, 0)] /\
  eTb e <> [] /\ exists e2 l2, edRun exW [EContent exText; EEnd] (initEd exW) = Ok e2 /\ draw e2 true false 2 2 = Some (Ok l2) /\ reversed l2 = [(3, 2)].
Proof.
  eexists. eexists. split; [vm_compute; reflexivity|]. split; [split; [right|left]; cbn [eX eY eWidth eHeight]; lia|]. split; [vm_compute; reflexivity|].
  split; [vm_compute; reflexivity|]. split; [discriminate|]. eexists. eexists. split; [vm_compute; reflexivity|]. split; vm_compute; reflexivity.
Qed.

Example C202_reach_ex : exists e, edRun exW [EContent exText] (initEd exW) = Ok e /\ (0 <= 2 < eWidth e)%Z /\ (0 <= 1 < eHeight e)%Z /\
  pressKeys exW 24 (KRune 103 :: repeat (KRune 106) 1 ++ repeat (KRune 108) 2) e = Ok (moveTo 2 1 e) /\ downKey (KRune 106) /\ rightKey (KRune 108) /\ ~ upKey KEnter.
Proof.
  eexists. split; [vm_compute; reflexivity|]. split; [cbn [eWidth]; lia|]. split; [cbn [eHeight]; lia|]. split; [vm_compute; reflexivity|].
  split; [right; right; left; reflexivity|]. split; [right; right; left; reflexivity|]. intros [X|[X|[X|[]]]]; discriminate X.
Qed.

Print Assumptions C202_partial.
Print Assumptions C202_half.
Print Assumptions C202_hidden.
Print Assumptions C202_keys.
Print Assumptions C202_reach.
Print Assumptions C202_pages.
Print Assumptions C202_others.
Print Assumptions C202_refuted.
