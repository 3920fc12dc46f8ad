(* The scanner: what Scan returns for every way of cutting the input into pieces, and what the tokens contain later. *)
From Verif Require Import Base CodecModel CodecProofs Maps IdentityModel IdentityProofs SqlModel MsgDBModel CryptoModel KeyfileModel ScanModel.
Local Open Scope N_scope.

Transparent takeN dropN.
Lemma takeN_takeN {A} a b (l : list A) : takeN a (takeN b l) = takeN (N.min a b) l.
Proof. unfold takeN. rewrite firstn_firstn. f_equal. lia. Qed.
Lemma dropN_takeN {A} a b (l : list A) : dropN a (takeN b l) = takeN (b - a) (dropN a l).
Proof. unfold takeN, dropN. rewrite skipn_firstn_comm. f_equal. lia. Qed.
Lemma takeN_add {A} a b (l : list A) : takeN (a + b) l = takeN a l ++ takeN b (dropN a l).
Proof. unfold takeN, dropN. rewrite N2Nat.inj_add. revert l. induction (N.to_nat a) as [|n IH]; intros l; [reflexivity|]. destruct l as [|x l]; cbn [firstn skipn Nat.add app]; [rewrite firstn_nil; reflexivity|]. rewrite IH. reflexivity. Qed.
Opaque takeN dropN.
Lemma takeN_appl {A} n (a b : list A) : n <= lenN a -> takeN n (a ++ b) = takeN n a.
Proof. intros L. rewrite <- (takeN_dropN n a) at 1. rewrite <- app_assoc. apply takeN_app. rewrite lenN_takeN. lia. Qed.
Lemma dropN_appl {A} n (a b : list A) : n <= lenN a -> dropN n (a ++ b) = dropN n a ++ b.
Proof. intros L. rewrite <- (takeN_dropN n a) at 1. rewrite <- app_assoc. apply dropN_app. rewrite lenN_takeN. lia. Qed.

(* ------------------------------------------------------------------ *)
(* lines of a text: what is before each line break, and the rest if it is not empty; one CR at the end of a line is dropped *)
Fixpoint linesFrom (cur s : bytes) : list bytes :=
  match s with
  | [] => if isNil cur then [] else [chop_cr cur]
  | c :: s' => if c =? 10 then chop_cr cur :: linesFrom [] s' else linesFrom (cur ++ [c]) s'
  end.
Definition linesOf (s : bytes) : list bytes := linesFrom [] s.
Lemma linesFrom_cut cur s : linesFrom cur s = match cutOn 10 s with Some (a, b) => chop_cr (cur ++ a) :: linesOf b | None => if isNil (cur ++ s) then [] else [chop_cr (cur ++ s)] end.
Proof.
  revert cur; induction s as [|c s IH]; intros cur; cbn [linesFrom cutOn]; [rewrite app_nil_r; reflexivity|]. destruct (c =? 10); [rewrite app_nil_r; reflexivity|].
  rewrite IH. destruct (cutOn 10 s) as [[a b]|]; rewrite <- app_assoc; reflexivity.
Qed.
Lemma linesOf_cut s : linesOf s = match cutOn 10 s with Some (a, b) => chop_cr a :: linesOf b | None => if isNil s then [] else [chop_cr s] end.
Proof. exact (linesFrom_cut [] s). Qed.
Lemma cutOn_eq s a b : cutOn 10 s = Some (a, b) -> s = a ++ 10 :: b.
Proof.
  revert a; induction s as [|c s IH]; intros a; cbn [cutOn]; [discriminate|]. destruct (N.eqb_spec c 10) as [->|]; [intros H; inversion H; reflexivity|].
  destruct (cutOn 10 s) as [[x y]|]; [|discriminate]. intros H; inversion H; subst. rewrite (IH x eq_refl) at 1. reflexivity.
Qed.
Lemma cutOn_more s t a b : cutOn 10 s = Some (a, b) -> cutOn 10 (s ++ t) = Some (a, b ++ t).
Proof.
  revert a; induction s as [|c s IH]; intros a; cbn [cutOn app]; [discriminate|]. destruct (N.eqb_spec c 10) as [->|]; [intros H; inversion H; reflexivity|].
  destruct (cutOn 10 s) as [[x y]|]; [|discriminate]. intros H; inversion H; subst. rewrite (IH x eq_refl). reflexivity.
Qed.
Lemma cutOn_none_app s t : cutOn 10 s = None -> cutOn 10 (s ++ t) = match cutOn 10 t with Some (a, b) => Some (s ++ a, b) | None => None end.
Proof.
  induction s as [|c s IH]; cbn [cutOn app]; [intros _; destruct (cutOn 10 t) as [[a b]|]; reflexivity|]. destruct (c =? 10); [discriminate|].
  destruct (cutOn 10 s) as [[x y]|]; [discriminate|]. intros _. rewrite (IH eq_refl). destruct (cutOn 10 t) as [[a b]|]; reflexivity.
Qed.
Lemma chop_cr_prefix l : exists r, l = chop_cr l ++ r.
Proof.
  unfold chop_cr. destruct (rev l) as [|x r] eqn:E; [exists []; now rewrite app_nil_r|]. assert (L : l = rev r ++ [x]) by (rewrite <- (rev_involutive l), E; reflexivity).
  destruct x as [|p]; [exists []; now rewrite app_nil_r|]. repeat (destruct p as [p|p|]; try (exists []; now rewrite app_nil_r)). exists [13]. exact L.
Qed.
Lemma chop_cr_take l t : takeN (lenN (chop_cr l)) (l ++ t) = chop_cr l.
Proof. destruct (chop_cr_prefix l) as [r E]. rewrite E at 2. rewrite <- app_assoc. apply takeN_app. reflexivity. Qed.

(* ------------------------------------------------------------------ *)
(* any input: [rest] is what has not been returned *)
Record sane (s : scanner) (rest : bytes) : Prop := {
  sn_pos : scStart s <= scEnd s /\ scEnd s <= lenN (scBuf s) /\ lenN (scBuf s) <= 65536;
  sn_rest : rest = scData s ++ concat (scIn s);
  sn_in : Forall (fun p => p <> []) (scIn s);
  sn_eof : scEof s = true -> scIn s = [];
  sn_long : scLong s = false }.
Lemma sane_new pieces : sane (newScanner pieces) (concat pieces).
Proof.
  constructor; cbn [newScanner scStart scEnd scBuf scIn scEof scLong]; try discriminate; auto.
  - rewrite (lenN_nil N). lia.
  - unfold scData. cbn [newScanner scStart scEnd scBuf]. rewrite takeN_0. cbn [app]. clear. induction pieces as [|[|x p] ps IH]; cbn [filter negb isNil concat app]; [reflexivity|exact IH|]. rewrite IH. reflexivity.
  - apply Forall_forall. intros p I. apply filter_In in I as [_ I]. destruct p; [discriminate I|discriminate].
Qed.
Lemma data_len s rest : sane s rest -> lenN (scData s) = scEnd s - scStart s.
Proof. intros H. pose proof (sn_pos _ _ H). unfold scData. rewrite lenN_takeN, lenN_dropN. lia. Qed.
Lemma shift_sane s rest : sane s rest -> sane (scShift s) rest /\ scData (scShift s) = scData s /\ scEof (scShift s) = scEof s /\ scIn (scShift s) = scIn s /\ lenN (scBuf (scShift s)) = lenN (scBuf s) /\
  (scStart (scShift s) = 0 \/ scEnd (scShift s) < lenN (scBuf s)).
Proof.
  intros H. pose proof (sn_pos _ _ H) as P. pose proof (data_len s rest H) as D. unfold scShift. destruct (_ && _) eqn:E.
  - assert (DD : scData (mkScan (scOld s) (scData s ++ dropN (lenN (scData s)) (scBuf s)) 0 (scEnd s - scStart s) (scEof s) (scLong s) (scIn s)) = scData s).
    { unfold scData at 1. cbn [scStart scEnd scBuf]. rewrite dropN_0, N.sub_0_r. apply takeN_app. exact D. }
    assert (LL : lenN (scData s ++ dropN (lenN (scData s)) (scBuf s)) = lenN (scBuf s)) by (rewrite lenN_app, lenN_dropN; lia).
    split; [|cbn [scEof scIn scBuf scStart]; split; [exact DD|]; split; [reflexivity|]; split; [reflexivity|]; split; [exact LL|left; reflexivity]]. constructor; cbn [scStart scEnd scBuf scIn scEof scLong].
    + rewrite LL. lia.
    + rewrite DD. apply (sn_rest _ _ H).
    + apply (sn_in _ _ H).
    + apply (sn_eof _ _ H).
    + apply (sn_long _ _ H).
  - repeat (split; [first [exact H|reflexivity]|]). destruct (N.ltb_spec 0 (scStart s)); [|left; lia]. cbn [andb] in E. apply orb_false_elim in E as [E _]. apply N.eqb_neq in E. right. lia.
Qed.
Lemma grow_sane s rest : sane s rest -> scStart s = 0 \/ scEnd s < lenN (scBuf s) ->
  match scGrow s with
  | None => lenN (scData s) = 65536
  | Some s' => sane s' rest /\ scData s' = scData s /\ scEof s' = scEof s /\ scIn s' = scIn s /\ scEnd s' < lenN (scBuf s')
  end.
Proof.
  intros H Q. pose proof (sn_pos _ _ H) as P. pose proof (data_len s rest H) as D. unfold scGrow. destruct (N.eqb_spec (scEnd s) (lenN (scBuf s))) as [E|E].
  - destruct (N.leb_spec 65536 (lenN (scBuf s))); [lia|]. cbv zeta. set (n := N.min 65536 (if lenN (scBuf s) =? 0 then 4096 else lenN (scBuf s) * 2)).
    assert (NG : lenN (scBuf s) < n) by (unfold n; destruct (N.eqb_spec (lenN (scBuf s)) 0); lia). assert (NL : n <= 65536) by (unfold n; lia).
    set (s' := mkScan _ _ _ _ _ _ _). assert (LL : lenN (scBuf s') = n).
    { unfold s'. cbn [scBuf]. rewrite lenN_app. unfold lenN at 2. rewrite repeat_length, N2Nat.id. lia. }
    assert (DD : scData s' = scData s).
    { unfold s', scData at 1. cbn [scStart scEnd scBuf]. rewrite dropN_0, N.sub_0_r. apply takeN_app. exact D. }
    split; [|unfold s'; cbn [scEof scIn scEnd]; split; [exact DD|]; split; [reflexivity|]; split; [reflexivity|]; fold s'; lia]. constructor; try (unfold s'; cbn [scStart scEnd scIn scEof scLong]).
    + fold s'. rewrite LL. lia.
    + fold s'. rewrite DD. apply (sn_rest _ _ H).
    + apply (sn_in _ _ H).
    + apply (sn_eof _ _ H).
    + apply (sn_long _ _ H).
  - repeat (split; [first [exact H|reflexivity]|]). lia.
Qed.
Lemma read_sane s rest : sane s rest -> scEnd s < lenN (scBuf s) -> scEof s = false ->
  sane (scRead s) rest /\ (scEof (scRead s) = true /\ scIn s = [] /\ scIn (scRead s) = [] /\ scData (scRead s) = scData s \/ scEof (scRead s) = false /\ (length (concat (scIn (scRead s))) < length (concat (scIn s)))%nat).
Proof.
  intros H L EF. pose proof (sn_pos _ _ H) as P. unfold scRead. destruct (scIn s) as [|p ps] eqn:I.
  - split; [|left; auto]. constructor; cbn [scStart scEnd scBuf scIn scEof scLong]; auto; [|apply (sn_long _ _ H)]. rewrite (sn_rest _ _ H), I. reflexivity.
  - cbv zeta. set (room := lenN (scBuf s) - scEnd s). set (d := takeN room p). set (s' := mkScan _ _ _ _ _ _ _). pose proof (sn_in _ _ H) as F. rewrite I in F. inversion F as [|? ? NP F']; subst.
    assert (Ld : lenN d = N.min room (lenN p)) by (unfold d; apply lenN_takeN). assert (Lp : 0 < lenN p) by (destruct p; [contradiction|rewrite lenN_cons; lia]).
    assert (LB : lenN (scBuf s') = lenN (scBuf s)) by (unfold s'; cbn [scBuf]; rewrite !lenN_app, lenN_takeN, lenN_dropN; lia).
    assert (DD : scData s' = scData s ++ d).
    { unfold s', scData at 1. cbn [scStart scEnd scBuf]. rewrite <- app_assoc || idtac. rewrite (dropN_appl (scStart s)) by (rewrite lenN_takeN; lia). rewrite dropN_takeN.
      assert (LT : lenN (takeN (scEnd s - scStart s) (dropN (scStart s) (scBuf s))) = scEnd s - scStart s) by (rewrite lenN_takeN, lenN_dropN; lia).
      replace (scEnd s + lenN d - scStart s) with ((scEnd s - scStart s) + lenN d) by lia. rewrite takeN_add. rewrite takeN_app by exact LT. rewrite dropN_app by exact LT. rewrite takeN_app by reflexivity. reflexivity. }
    assert (CI : d ++ concat (scIn s') = concat (p :: ps)).
    { unfold s'. cbn [scIn concat]. destruct (N.leb_spec (lenN p) room); unfold d; [rewrite takeN_all by assumption; reflexivity|]. cbn [concat]. rewrite app_assoc, takeN_dropN. reflexivity. }
    split; [constructor|right; split; [exact EF|]].
    + rewrite LB. unfold s'. cbn [scStart scEnd]. lia.
    + rewrite (sn_rest _ _ H), I, DD, <- app_assoc, CI. reflexivity.
    + unfold s'. cbn [scIn]. destruct (N.leb_spec (lenN p) room); [exact F'|]. constructor; [|exact F']. intros Q. apply (f_equal lenN) in Q. rewrite lenN_dropN, (lenN_nil N) in Q. lia.
    + unfold s'. cbn [scEof]. rewrite EF. discriminate.
    + apply (sn_long _ _ H).
    + rewrite <- CI, app_length. assert (Z : 0 < lenN d) by lia. unfold lenN in Z. lia.
Qed.

Lemma scanLoop_some n s rest a b : sane s rest -> (length (concat (scIn s)) + (if scEof s then 0 else 1) < n)%nat ->
  cutOn 10 rest = Some (a, b) -> lenN a <= 65535 ->
  exists sl s', scanLoop n s = (Some sl, s') /\ sane s' b /\ deref s' (Some sl) = chop_cr a /\ slOff sl + lenN (chop_cr a) <= scStart s'.
Proof.
  revert s; induction n as [|n IH]; intros s H L CU LA; [lia|]. cbn [scanLoop]. pose proof (sn_pos _ _ H) as P. pose proof (data_len _ _ H) as DL. destruct (cutOn 10 (scData s)) as [[x y]|] eqn:E.
  - assert (CO : cutOn 10 rest = Some (x, y ++ concat (scIn s))) by (rewrite (sn_rest _ _ H); apply cutOn_more, E). assert (x = a) by congruence. assert (b = y ++ concat (scIn s)) by congruence. subst x b.
    pose proof (cutOn_eq _ _ _ E) as DE. assert (LE : lenN (scData s) = lenN a + 1 + lenN y) by (rewrite DE, lenN_app, lenN_cons; lia). replace (scStart s <? scEnd s) with true by (symmetry; apply N.ltb_lt; lia). cbn [orb].
    unfold scanLines. replace (isNil (scData s)) with false by (rewrite DE; destruct a; reflexivity). rewrite andb_false_r, E. do 2 eexists. split; [reflexivity|]. split; [|split].
    + constructor; cbn [scStart scEnd scBuf scIn scEof scLong]; try apply H.
      * lia.
      * f_equal. unfold scData. cbn [scStart scEnd scBuf]. rewrite <- dropN_dropN. replace (scEnd s - (scStart s + (lenN a + 1))) with (scEnd s - scStart s - (lenN a + 1)) by lia. rewrite <- dropN_takeN.
        change (takeN (scEnd s - scStart s) (dropN (scStart s) (scBuf s))) with (scData s). rewrite DE. change (10 :: y) with ([10] ++ y). rewrite app_assoc. symmetry. apply dropN_app. rewrite lenN_app. reflexivity.
    + unfold deref. cbn [slBuf slOff slLen scOld scBuf]. rewrite app_nth2, Nat.sub_diag by lia. cbn [nth]. destruct (chop_cr_prefix a) as [r Ea].
      assert (Lc : lenN (chop_cr a) <= lenN a) by (rewrite Ea at 2; rewrite lenN_app; lia).
      replace (lenN (chop_cr a)) with (N.min (lenN (chop_cr a)) (scEnd s - scStart s)) by lia. rewrite <- takeN_takeN. change (takeN (scEnd s - scStart s) (dropN (scStart s) (scBuf s))) with (scData s). rewrite DE. apply chop_cr_take.
    + cbn [slOff scStart]. destruct (chop_cr_prefix a) as [r Ea]. assert (Lc : lenN (chop_cr a) <= lenN a) by (rewrite Ea at 2; rewrite lenN_app; lia). lia.
  - assert (EF : scEof s = false).
    { destruct (scEof s) eqn:Q; [|reflexivity]. exfalso. rewrite (sn_rest _ _ H), (sn_eof _ _ H Q) in CU. cbn [concat] in CU. rewrite app_nil_r in CU. congruence. }
    rewrite EF in *. assert (SL : (if (scStart s <? scEnd s) || false then scanLines (scData s) false else (0, None)) = (0, None)).
    { destruct (_ || _); [|reflexivity]. unfold scanLines. cbn [andb]. rewrite E. reflexivity. }
    rewrite SL. destruct (shift_sane s rest H) as (H1 & D1 & E1 & I1 & B1 & Q1). pose proof (grow_sane (scShift s) rest H1 ltac:(rewrite B1; exact Q1)) as G. destruct (scGrow (scShift s)) as [s2|].
    + destruct G as (H2 & D2 & E2 & I2 & Q2). destruct (read_sane s2 rest H2 Q2 ltac:(congruence)) as [H3 Q3]. apply IH; auto. destruct Q3 as [(E3 & I3 & J3 & K3)|(E3 & L3)].
      * exfalso. rewrite (sn_rest _ _ H3), K3, J3 in CU. cbn [concat] in CU. rewrite app_nil_r in CU. congruence.
      * rewrite E3. rewrite I2, I1 in L3. lia.
    + exfalso. pose proof (cutOn_none_app (scData s) (concat (scIn s)) E) as CN. rewrite <- (sn_rest _ _ H), CU in CN. destruct (cutOn 10 (concat (scIn s))) as [[u v]|]; [|discriminate CN].
      assert (a = scData s ++ u) by congruence. subst a. rewrite lenN_app, <- D1, G in LA. lia.
Qed.
Lemma scanLoop_last n s rest : sane s rest -> (length (concat (scIn s)) + (if scEof s then 0 else 1) < n)%nat ->
  cutOn 10 rest = None -> lenN rest <= 65535 ->
  exists r s', scanLoop n s = (r, s') /\ sane s' [] /\ (rest = [] -> r = None) /\ (rest <> [] -> exists sl, r = Some sl /\ deref s' r = chop_cr rest).
Proof.
  revert s; induction n as [|n IH]; intros s H L CU LA; [lia|]. cbn [scanLoop]. pose proof (sn_pos _ _ H) as P. pose proof (data_len _ _ H) as DL.
  assert (E : cutOn 10 (scData s) = None).
  { destruct (cutOn 10 (scData s)) as [[x y]|] eqn:E; [|reflexivity]. apply (cutOn_more _ (concat (scIn s))) in E. rewrite <- (sn_rest _ _ H), CU in E. discriminate E. }
  destruct (scEof s) eqn:EF.
  - rewrite orb_true_r. assert (RD : rest = scData s) by (rewrite (sn_rest _ _ H), (sn_eof _ _ H EF); cbn [concat]; apply app_nil_r). unfold scanLines. destruct (scData s) as [|x d] eqn:D.
    + cbn [andb isNil]. do 2 eexists. split; [reflexivity|]. split; [|split; [reflexivity|congruence]]. constructor; cbn [scStart scEnd scBuf scIn scEof scLong]; [lia| |apply (sn_in _ _ H)|intros _; apply (sn_eof _ _ H EF)|apply (sn_long _ _ H)].
      unfold scData. cbn [scStart scEnd]. rewrite takeN_0, (sn_eof _ _ H EF). reflexivity.
    + cbn [andb isNil]. rewrite E. do 2 eexists. split; [reflexivity|]. split; [|split; [congruence|intros _; eexists; split; [reflexivity|]]].
      * constructor; cbn [scStart scEnd scBuf scIn scEof scLong]; [lia| |apply (sn_in _ _ H)|intros _; apply (sn_eof _ _ H EF)|apply (sn_long _ _ H)]. unfold scData. cbn [scStart scEnd]. rewrite (sn_eof _ _ H EF). replace (scEnd s - (scStart s + lenN (x :: d))) with 0 by lia. rewrite takeN_0. reflexivity.
      * unfold deref. cbn [slBuf slOff slLen scOld scBuf]. rewrite app_nth2, Nat.sub_diag by lia. cbn [nth]. destruct (chop_cr_prefix (x :: d)) as [r Ea].
        assert (Lc : lenN (chop_cr (x :: d)) <= lenN (x :: d)) by (rewrite Ea at 2; rewrite lenN_app; lia).
        replace (lenN (chop_cr (x :: d))) with (N.min (lenN (chop_cr (x :: d))) (scEnd s - scStart s)) by lia. rewrite <- takeN_takeN. change (takeN (scEnd s - scStart s) (dropN (scStart s) (scBuf s))) with (scData s). rewrite D, RD.
        pose proof (chop_cr_take (x :: d) []) as CT. rewrite app_nil_r in CT. exact CT.
  - assert (SL : (if (scStart s <? scEnd s) || false then scanLines (scData s) false else (0, None)) = (0, None)).
    { destruct (_ || _); [|reflexivity]. unfold scanLines. cbn [andb]. rewrite E. reflexivity. }
    rewrite SL. destruct (shift_sane s rest H) as (H1 & D1 & E1 & I1 & B1 & Q1). pose proof (grow_sane (scShift s) rest H1 ltac:(rewrite B1; exact Q1)) as G. destruct (scGrow (scShift s)) as [s2|].
    + destruct G as (H2 & D2 & E2 & I2 & Q2). destruct (read_sane s2 rest H2 Q2 ltac:(congruence)) as [H3 Q3]. apply IH; auto. destruct Q3 as [(E3 & I3 & J3 & K3)|(E3 & L3)].
      * rewrite E3, J3. cbn [concat length]. rewrite I2, I1 in I3. rewrite I3 in L. cbn [concat length] in L. lia.
      * rewrite E3. rewrite I2, I1 in L3. lia.
    + exfalso. rewrite (sn_rest _ _ H), lenN_app, <- D1, G in LA. lia.
Qed.

(* ------------------------------------------------------------------ *)
(* inputs of at most 2048 bytes: nothing is ever moved; the buffer agrees with the input up to [e] *)
Record still (inp : bytes) (e : N) (s : scanner) : Prop := {
  st_short : lenN inp <= 2048 /\ e <= lenN inp;
  st_old : scOld s = [[]];
  st_len : lenN (scBuf s) = 4096;
  st_same : takeN e (scBuf s) = takeN e inp;
  st_pos : scStart s <= scEnd s /\ scEnd s <= e /\ (scEof s = false -> scEnd s = e);
  st_in : concat (scIn s) = dropN e inp;
  st_zero : Forall (fun x => x = 0) (dropN e (scBuf s)) }.
Lemma deref_still inp e s sl : still inp e s -> slBuf sl = 1%nat -> slOff sl + slLen sl <= e -> deref s (Some sl) = takeN (slLen sl) (dropN (slOff sl) inp).
Proof.
  intros H B L. unfold deref. rewrite B, (st_old _ _ _ H). cbn [app nth].
  assert (X : forall l : bytes, takeN (slLen sl) (dropN (slOff sl) l) = takeN (slLen sl) (dropN (slOff sl) (takeN e l))).
  { intros l. rewrite dropN_takeN, takeN_takeN. f_equal. lia. }
  rewrite X, (st_same _ _ _ H), <- X. reflexivity.
Qed.
Lemma Forall_dropN {A} (P : A -> Prop) n l : Forall P l -> Forall P (dropN n l).
Proof. intros F. rewrite <- (takeN_dropN n l) in F. apply Forall_app in F. apply F. Qed.
Lemma read_still inp e s : still inp e s -> scEof s = false -> exists e', e <= e' /\ still inp e' (scRead s) /\ scStart (scRead s) = scStart s.
Proof.
  intros H EF. pose proof (st_short _ _ _ H) as [LS LE]. pose proof (st_pos _ _ _ H) as (P1 & P2 & P3). specialize (P3 EF). pose proof (st_len _ _ _ H) as LB. unfold scRead. destruct (scIn s) as [|p ps] eqn:I.
  - exists e. split; [lia|]. split; [|reflexivity]. constructor; cbn [scOld scBuf scStart scEnd scEof scIn]; [split; assumption|apply (st_old _ _ _ H)|exact LB|apply (st_same _ _ _ H)|lia| |apply (st_zero _ _ _ H)]. rewrite <- (st_in _ _ _ H), I. reflexivity.
  - cbv zeta. pose proof (st_in _ _ _ H) as CI. rewrite I in CI. cbn [concat] in CI. assert (Lp : lenN p <= lenN inp - e) by (rewrite <- lenN_dropN, <- CI, lenN_app; lia).
    rewrite (takeN_all p) by lia. replace (lenN p <=? lenN (scBuf s) - scEnd s) with true by (symmetry; apply N.leb_le; lia). exists (e + lenN p). split; [lia|]. rewrite P3 in *.
    assert (LT : lenN (takeN e (scBuf s)) = e) by (rewrite lenN_takeN; lia). split; [|reflexivity]. constructor; cbn [scOld scBuf scStart scEnd scEof scIn].
    + lia.
    + apply (st_old _ _ _ H).
    + rewrite !lenN_app, lenN_dropN, LT. lia.
    + rewrite app_assoc, takeN_app by (rewrite lenN_app; lia). rewrite takeN_add, (st_same _ _ _ H), <- CI. rewrite takeN_app by reflexivity. reflexivity.
    + lia.
    + rewrite <- dropN_dropN, <- CI. symmetry. apply dropN_app. reflexivity.
    + rewrite app_assoc, dropN_app by (rewrite lenN_app; lia). rewrite <- dropN_dropN. apply Forall_dropN, (st_zero _ _ _ H).
Qed.
Lemma scanLines_len data eof adv n : scanLines data eof = (adv, Some n) -> n <= adv /\ adv <= lenN data.
Proof.
  assert (CL : forall l, lenN (chop_cr l) <= lenN l) by (intros l; destruct (chop_cr_prefix l) as [r E]; rewrite E at 2; rewrite lenN_app; lia).
  unfold scanLines. destruct (_ && _); [discriminate|]. destruct (cutOn 10 data) as [[a b]|] eqn:C.
  - intros H; inversion H; subst. apply cutOn_eq in C. rewrite C, lenN_app, lenN_cons. specialize (CL a). lia.
  - destruct eof; intros H; inversion H; subst. specialize (CL data). lia.
Qed.
Lemma loop_still inp n : forall s e r s', still inp e s -> scanLoop n s = (r, s') ->
  exists e', e <= e' /\ still inp e' s' /\ forall sl, r = Some sl -> slBuf sl = 1%nat /\ slOff sl + slLen sl <= e' /\ slOff sl = scStart s.
Proof.
  induction n as [|n IH]; intros s e r s' H E; cbn [scanLoop] in E.
  { inversion E; subst. exists e. split; [lia|]. split; [exact H|]. discriminate. }
  pose proof (st_short _ _ _ H) as [LS LE]. pose proof (st_pos _ _ _ H) as (P1 & P2 & P3). pose proof (st_len _ _ _ H) as LB. destruct (if _ || _ then _ else _) as [adv [k|]] eqn:SL.
  - inversion E; subst. exists e. split; [lia|]. assert (SL2 : scanLines (scData s) (scEof s) = (adv, Some k)) by (destruct (_ || _) in SL; [exact SL|discriminate SL]). apply scanLines_len in SL2 as [A1 A2].
    assert (DL : lenN (scData s) = scEnd s - scStart s) by (unfold scData; rewrite lenN_takeN, lenN_dropN; lia). split.
    + constructor; cbn [scOld scBuf scStart scEnd scEof scIn]; [split; assumption|apply (st_old _ _ _ H)|exact LB|apply (st_same _ _ _ H)| |apply (st_in _ _ _ H)|apply (st_zero _ _ _ H)]. split; [lia|]. split; [lia|exact P3].
    + intros sl Q. assert (sl = mkSl (length (scOld s)) (scStart s) k) as -> by congruence. cbn [slBuf slOff slLen]. rewrite (st_old _ _ _ H). split; [reflexivity|split; [lia|reflexivity]].
  - destruct (scEof s) eqn:EF.
    + inversion E; subst. exists e. split; [lia|]. split; [|discriminate]. constructor; cbn [scOld scBuf scStart scEnd scEof scIn]; [split; assumption|apply (st_old _ _ _ H)|exact LB|apply (st_same _ _ _ H)| |apply (st_in _ _ _ H)|apply (st_zero _ _ _ H)]. split; [lia|]. split; [lia|discriminate].
    + assert (SH : scShift s = s).
      { unfold scShift. rewrite LB. replace (scEnd s =? 4096) with false by (symmetry; apply N.eqb_neq; lia). change (4096 / 2) with 2048. replace (2048 <? scStart s) with false by (symmetry; apply N.ltb_ge; lia). rewrite andb_false_r. reflexivity. }
      assert (GR : scGrow s = Some s) by (unfold scGrow; rewrite LB; replace (scEnd s =? 4096) with false by (symmetry; apply N.eqb_neq; lia); reflexivity).
      rewrite SH, GR in E. destruct (read_still inp e s H EF) as (e1 & L1 & H1 & Q1). destruct (IH _ _ _ _ H1 E) as (e2 & L2 & H2 & T). exists e2. split; [lia|]. split; [exact H2|]. rewrite Q1 in T. exact T.
Qed.
Lemma first_still pieces r s' : lenN (concat pieces) <= 2048 -> scan (newScanner pieces) = (r, s') ->
  exists e', still (concat pieces) e' s' /\ forall sl, r = Some sl -> slBuf sl = 1%nat /\ slOff sl + slLen sl <= e' /\ slOff sl = 0.
Proof.
  intros L E. unfold scan in E. assert (G : exists s0, scGrow (scShift (newScanner pieces)) = Some s0 /\ still (concat pieces) 0 s0 /\ scEof s0 = false /\ scStart s0 = 0).
  { pose proof (sn_rest _ _ (sane_new pieces)) as SR. unfold scData in SR. cbn [newScanner scStart scEnd scBuf scIn] in SR. rewrite takeN_0 in SR. cbn [app] in SR.
    eexists. split; [reflexivity|]. split; [|split; reflexivity]. constructor; cbn [newScanner scOld scBuf scStart scEnd scEof scIn scShift N.ltb N.compare andb].
    - lia.
    - reflexivity.
    - unfold scData. cbn [scStart scEnd scBuf]. rewrite takeN_0. cbn [app]. rewrite (lenN_nil N). unfold lenN. rewrite repeat_length, N2Nat.id. reflexivity.
    - rewrite !takeN_0. reflexivity.
    - change (0 <= 0 /\ 0 <= 0 /\ (false = false -> 0 = 0)). lia.
    - rewrite dropN_0. symmetry. exact SR.
    - apply Forall_forall. intros x I. rewrite dropN_0 in I. apply repeat_spec in I. exact I. }
  destruct G as (s0 & G & H0 & EF & Z0). remember (S (length (concat (scIn (newScanner pieces))))) as n eqn:En. cbn [scanLoop] in E.
  change ((scStart (newScanner pieces) <? scEnd (newScanner pieces)) || scEof (newScanner pieces)) with false in E. cbn iota in E. change (scEof (newScanner pieces)) with false in E. cbn iota in E. rewrite G in E.
  destruct (read_still _ 0 s0 H0 EF) as (e1 & L1 & H1 & Q1). rewrite Z0 in Q1. destruct (loop_still _ _ _ _ _ _ H1 E) as (e2 & L2 & H2 & T). exists e2. split; [exact H2|]. rewrite Q1 in T. exact T.
Qed.

(* ------------------------------------------------------------------ *)
(* one line after the other *)
Definition fits (rest : bytes) : Prop := Forall (fun l => lenN l <= 65534) (linesOf rest).
Lemma chop_cr_len l : lenN l <= lenN (chop_cr l) + 1.
Proof.
  unfold chop_cr. destruct (rev l) as [|x r] eqn:E; [lia|]. assert (L : l = rev r ++ [x]) by (rewrite <- (rev_involutive l), E; reflexivity).
  destruct x as [|p]; [lia|]. repeat (destruct p as [p|p|]; try lia). rewrite L, lenN_app. reflexivity.
Qed.
Lemma fits_cut rest a b : fits rest -> cutOn 10 rest = Some (a, b) -> lenN a <= 65535 /\ fits b.
Proof. unfold fits. intros H E. rewrite linesOf_cut, E in H. inversion H; subst. pose proof (chop_cr_len a). split; [lia|assumption]. Qed.
Lemma fits_short rest : lenN rest <= 65534 -> fits rest.
Proof.
  intros L. unfold fits. assert (G : forall cur s, lenN cur + lenN s <= 65534 -> Forall (fun l => lenN l <= 65534) (linesFrom cur s)).
  { assert (CL : forall l, lenN (chop_cr l) <= lenN l) by (intros l; destruct (chop_cr_prefix l) as [r E]; rewrite E at 2; rewrite lenN_app; lia).
    intros cur s; revert cur. induction s as [|c s IH]; intros cur K; cbn [linesFrom].
    - destruct (isNil cur); [constructor|]. constructor; [|constructor]. specialize (CL cur). lia.
    - rewrite lenN_cons in K. destruct (c =? 10).
      + constructor; [specialize (CL cur); lia|]. apply IH. rewrite (lenN_nil N). lia.
      + apply IH. rewrite lenN_app. change (lenN [c]) with 1. lia. }
  apply G. rewrite (lenN_nil N). lia.
Qed.
Lemma scan_next s rest : sane s rest -> fits rest ->
  exists r s' rest', scan s = (r, s') /\ sane s' rest' /\ fits rest' /\ deref s' r = nth 0 (linesOf rest) [] /\ linesOf rest' = tl (linesOf rest) /\ (r = None <-> linesOf rest = []).
Proof.
  intros H F. unfold scan. assert (FU : (length (concat (scIn s)) + (if scEof s then 0 else 1) < S (S (length (concat (scIn s)))))%nat) by (destruct (scEof s); lia).
  destruct (cutOn 10 rest) as [[a b]|] eqn:E.
  - destruct (fits_cut _ _ _ F E) as [LA FB]. destruct (scanLoop_some _ s rest a b H FU E LA) as (sl & s' & SC & H' & D & _). exists (Some sl), s', b. rewrite linesOf_cut, E. cbn [nth tl].
    split; [exact SC|]. split; [exact H'|]. split; [exact FB|]. split; [exact D|]. split; [reflexivity|]. split; discriminate.
  - assert (LR : lenN rest <= 65535).
    { unfold fits in F. rewrite linesOf_cut, E in F. destruct rest as [|x r]; [rewrite (lenN_nil N); lia|]. cbn [isNil] in F. inversion F; subst. pose proof (chop_cr_len (x :: r)). lia. }
    destruct (scanLoop_last _ s rest H FU E LR) as (r & s' & SC & H' & D1 & D2). exists r, s', []. rewrite linesOf_cut, E. split; [exact SC|]. split; [exact H'|]. split; [constructor|].
    destruct rest as [|x y].
    + rewrite (D1 eq_refl). cbn [isNil nth tl deref]. repeat split; auto.
    + destruct (D2 ltac:(discriminate)) as (sl & -> & D). cbn [isNil nth tl]. split; [exact D|]. split; [reflexivity|]. split; discriminate.
Qed.
Lemma readPass_next s rest : sane s rest -> fits rest ->
  exists r s' rest', scan s = (r, s') /\ readPass s = Ok (r, s') /\ sane s' rest' /\ fits rest' /\ deref s' r = nth 0 (linesOf rest) [] /\ linesOf rest' = tl (linesOf rest).
Proof.
  intros H F. destruct (scan_next s rest H F) as (r & s' & rest' & SC & H' & F' & D & T & _). exists r, s', rest'. split; [exact SC|]. split; [|auto]. unfold readPass. rewrite SC. destruct r; [reflexivity|]. rewrite (sn_long _ _ H'). reflexivity.
Qed.
Lemma scan_still inp s e r s' : still inp e s -> scan s = (r, s') -> exists e', e <= e' /\ still inp e' s' /\ forall sl, r = Some sl -> slBuf sl = 1%nat /\ slOff sl + slLen sl <= e'.
Proof. intros H E. destruct (loop_still inp _ s e r s' H E) as (e' & L & H' & T). exists e'. split; [exact L|]. split; [exact H'|]. intros sl Q. destruct (T sl Q) as (A & B & _). auto. Qed.
Lemma still_keeps inp e e' s s' r : still inp e s -> still inp e' s' -> e <= e' -> (forall sl, r = Some sl -> slBuf sl = 1%nat /\ slOff sl + slLen sl <= e) -> deref s' r = deref s r.
Proof.
  intros H H' L T. destruct r as [sl|]; [|reflexivity]. destruct (T sl eq_refl) as [B Q]. rewrite (deref_still inp e s sl H B Q). apply (deref_still inp e' s' sl H' B). lia.
Qed.
Definition line (n : nat) (s : bytes) : bytes := nth n (linesOf s) [].
Lemma nth_tl {A} n (l : list A) d : nth n (tl l) d = nth (S n) l d.
Proof. destruct l; [destruct n; reflexivity|reflexivity]. Qed.
(* three reads of a short input *)
Lemma three_reads pieces : lenN (concat pieces) <= 2048 ->
  exists p0 s0 p1 s1 p2 s2, readPass (newScanner pieces) = Ok (p0, s0) /\ readPass s0 = Ok (p1, s1) /\ readPass s1 = Ok (p2, s2) /\
    deref s0 p0 = line 0 (concat pieces) /\ deref s1 p0 = line 0 (concat pieces) /\ deref s1 p1 = line 1 (concat pieces) /\
    deref s2 p0 = line 0 (concat pieces) /\ deref s2 p1 = line 1 (concat pieces) /\ deref s2 p2 = line 2 (concat pieces).
Proof.
  intros L. assert (FT : fits (concat pieces)) by (apply fits_short; lia). destruct (readPass_next _ _ (sane_new pieces) FT) as (p0 & s0 & r0 & E0 & R0 & H0 & F0 & D0 & T0). destruct (readPass_next s0 r0 H0 F0) as (p1 & s1 & r1 & E1 & R1 & H1 & F1 & D1 & T1). destruct (readPass_next s1 r1 H1 F1) as (p2 & s2 & r2 & E2 & R2 & H2 & F2 & D2 & T2).
  destruct (first_still pieces p0 s0 L E0) as (e0 & S0 & P0'). assert (P0 : forall sl, p0 = Some sl -> slBuf sl = 1%nat /\ slOff sl + slLen sl <= e0) by (intros sl Q; destruct (P0' sl Q) as (A & B & _); auto). clear P0'. destruct (scan_still _ _ _ _ _ S0 E1) as (e1 & L1 & S1 & P1). destruct (scan_still _ _ _ _ _ S1 E2) as (e2 & L2 & S2 & P2).
  rewrite T0, nth_tl in D1. rewrite T1, T0, !nth_tl in D2. fold (line 0 (concat pieces)) in D0. fold (line 1 (concat pieces)) in D1. fold (line 2 (concat pieces)) in D2.
  exists p0, s0, p1, s1, p2, s2. split; [exact R0|]. split; [exact R1|]. split; [exact R2|]. split; [exact D0|].
  split; [rewrite <- D0; apply (still_keeps _ e0 e1 s0 s1 p0 S0 S1 L1 P0)|]. split; [exact D1|]. split; [rewrite <- D0; apply (still_keeps _ e0 e2 s0 s2 p0 S0 S2 (N.le_trans _ _ _ L1 L2) P0)|]. split; [rewrite <- D1; apply (still_keeps _ e1 e2 s1 s2 p1 S1 S2 L2 P1)|exact D2].
Qed.

(* ------------------------------------------------------------------ *)
(* a later line is read over an earlier one *)
Lemma cutOn_line a b : cutOn 10 a = None -> cutOn 10 (a ++ 10 :: b) = Some (a, b).
Proof. intros H. rewrite (cutOn_none_app _ _ H). cbn [cutOn]. rewrite N.eqb_refl, app_nil_r. reflexivity. Qed.
Lemma loop_hit n o B st en eo lg i a b : takeN (en - st) (dropN st B) = a ++ 10 :: b -> cutOn 10 a = None -> chop_cr a = a -> st < en ->
  scanLoop (S n) (mkScan o B st en eo lg i) = (Some (mkSl (length o) st (lenN a)), mkScan o B (st + (lenN a + 1)) en eo lg i).
Proof.
  intros D C CR L. cbn [scanLoop scStart scEnd scEof]. replace (st <? en) with true by (symmetry; apply N.ltb_lt; exact L). cbn [orb]. unfold scData. cbn [scStart scEnd scBuf]. rewrite D. unfold scanLines.
  replace (isNil (a ++ 10 :: b)) with false by (destruct a; reflexivity). rewrite andb_false_r, (cutOn_line _ _ C), CR. reflexivity.
Qed.
Lemma loop_miss n s s' : cutOn 10 (scData s) = None -> scEof s = false -> scGrow (scShift s) = Some s' -> scanLoop (S n) s = scanLoop n (scRead s').
Proof.
  intros D E G. cbn [scanLoop]. rewrite E, G. destruct (_ || _); [|reflexivity]. unfold scanLines. rewrite D. reflexivity.
Qed.
Definition zeros : bytes := repeat 0 (N.to_nat 4096).
Lemma lenN_zeros : lenN zeros = 4096.
Proof. unfold lenN, zeros. rewrite repeat_length, N2Nat.id. reflexivity. Qed.
Lemma first_grow pieces : Forall (fun p => p <> []) pieces -> scGrow (scShift (newScanner pieces)) = Some (mkScan [[]] zeros 0 0 false false pieces).
Proof.
  intros F. assert (FI : filter (fun p => negb (isNil p)) pieces = pieces).
  { induction F as [|p ps NP _ IH]; [reflexivity|]. cbn [filter]. destruct p; [contradiction|]. cbn [isNil negb]. rewrite IH. reflexivity. }
  unfold newScanner. rewrite FI. reflexivity.
Qed.
Lemma first_loop n pieces : Forall (fun p => p <> []) pieces -> scanLoop (S n) (newScanner pieces) = scanLoop n (scRead (mkScan [[]] zeros 0 0 false false pieces)).
Proof. intros F. apply loop_miss; [|reflexivity|apply first_grow, F]. unfold scData. cbn [newScanner scStart scEnd scBuf]. rewrite takeN_0. reflexivity. Qed.

Lemma overwritten a b : lenN b = lenN a -> 2048 <= lenN a <= 4095 -> cutOn 10 a = None -> cutOn 10 b = None -> chop_cr a = a -> chop_cr b = b ->
  exists s, askNew [a ++ [10]; b ++ [10]] = Ok (b, s).
Proof.
  intros LL LA CA CB RA RB. assert (L1 : lenN (a ++ [10]) = lenN a + 1) by apply lenN_app. assert (L2 : lenN (b ++ [10]) = lenN a + 1) by (rewrite lenN_app, LL; reflexivity).
  set (Z := dropN (lenN a + 1) zeros). assert (LZ : lenN Z = 4095 - lenN a) by (unfold Z; rewrite lenN_dropN, lenN_zeros; lia).
  assert (NE : Forall (fun p : bytes => p <> []) [a ++ [10]; b ++ [10]]) by (repeat constructor; intros Q; apply app_eq_nil in Q as [_ Q]; discriminate Q).
  assert (S1 : scan (newScanner [a ++ [10]; b ++ [10]]) = (Some (mkSl 1 0 (lenN a)), mkScan [[]] (a ++ 10 :: Z) (lenN a + 1) (lenN a + 1) false false [b ++ [10]])).
  { unfold scan. rewrite (first_loop _ _ NE). unfold scRead at 1. cbn [scIn scBuf scEnd scOld scStart scEof scLong]. cbv zeta. rewrite lenN_zeros, (takeN_all (a ++ [10])) by lia.
    replace (lenN (a ++ [10]) <=? 4096 - 0) with true by (symmetry; apply N.leb_le; lia). rewrite takeN_0, L1, !N.add_0_l. cbn [app]. fold Z. rewrite <- app_assoc. apply loop_hit with (b := []); auto; [|lia]. rewrite dropN_0, N.sub_0_r. change (a ++ 10 :: Z) with (a ++ [10] ++ Z). rewrite app_assoc, takeN_app by exact L1. reflexivity. }
  set (s1 := mkScan [[]] (a ++ 10 :: Z) (lenN a + 1) (lenN a + 1) false false [b ++ [10]]) in *.
  assert (D1 : scData s1 = []) by (unfold scData, s1; cbn [scStart scEnd scBuf]; rewrite N.sub_diag; apply takeN_0).
  assert (LB : lenN (a ++ 10 :: Z) = 4096) by (rewrite lenN_app, lenN_cons, LZ; lia).
  assert (G1 : scGrow (scShift s1) = Some (mkScan [[]] (a ++ 10 :: Z) 0 0 false false [b ++ [10]])).
  { unfold scShift. rewrite D1. unfold s1. cbn [scStart scEnd scBuf scOld scEof scLong scIn]. rewrite LB. replace (0 <? lenN a + 1) with true by (symmetry; apply N.ltb_lt; lia). change (4096 / 2) with 2048. replace (2048 <? lenN a + 1) with true by (symmetry; apply N.ltb_lt; lia).
    rewrite orb_true_r. cbn [andb]. rewrite (lenN_nil N), dropN_0, N.sub_diag. cbn [app]. unfold scGrow. cbn [scEnd scBuf]. rewrite LB. reflexivity. }
  assert (S2 : scan s1 = (Some (mkSl 1 0 (lenN a)), mkScan [[]] (b ++ 10 :: Z) (lenN a + 1) (lenN a + 1) false false [])).
  { unfold scan. rewrite (loop_miss _ s1 _ ltac:(rewrite D1; reflexivity) eq_refl G1). unfold scRead at 1. cbn [scIn scBuf scEnd scOld scStart scEof scLong]. cbv zeta. rewrite LB, (takeN_all (b ++ [10])) by lia.
    replace (lenN (b ++ [10]) <=? 4096 - 0) with true by (symmetry; apply N.leb_le; lia). rewrite takeN_0, L2, !N.add_0_l. cbn [app]. replace (dropN (lenN a + 1) (a ++ 10 :: Z)) with Z by (symmetry; change (10 :: Z) with ([10] ++ Z); rewrite app_assoc; apply dropN_app; exact L1). rewrite <- app_assoc. rewrite <- LL. apply loop_hit with (b := []); auto; [|lia].
    rewrite dropN_0, N.sub_0_r. change (b ++ 10 :: Z) with (b ++ [10] ++ Z). rewrite app_assoc, takeN_app by (rewrite L2; lia). reflexivity. }
  eexists. unfold askNew, readPass. rewrite S1. cbn [rbind]. rewrite S2. cbn [rbind]. unfold deref. cbn [slBuf slOff slLen scOld scBuf app nth]. rewrite dropN_0, takeN_app by exact LL. rewrite beq_refl. reflexivity.
Qed.
Lemma old_overwritten old new : lenN new = lenN old -> 1365 <= lenN old <= 2047 -> cutOn 10 old = None -> cutOn 10 new = None -> chop_cr old = old -> chop_cr new = new ->
  askRekey [rekeyInput old new] = Ok (new, new).
Proof.
  intros LL LA CA CB RA RB. set (n := lenN old) in *. set (k := 4094 - 2 * n). set (x := takeN k new). set (y := dropN k new). set (o2 := dropN k old).
  assert (NX : new = x ++ y) by (symmetry; apply takeN_dropN). assert (LX : lenN x = k) by (unfold x; rewrite lenN_takeN; unfold k; lia). assert (LY : lenN y = n - k) by (unfold y; rewrite lenN_dropN; lia). assert (LO : lenN o2 = n - k) by (unfold o2; rewrite lenN_dropN; reflexivity).
  assert (KN : k <= n) by (unfold k; lia).
  set (d := old ++ [10] ++ new ++ [10] ++ x). assert (LD : lenN d = 4096) by (unfold d; rewrite !lenN_app, LX; change (lenN [10]) with 1; fold n; unfold k; lia).
  assert (RI : rekeyInput old new = d ++ y ++ [10]) by (unfold rekeyInput, d; rewrite <- !app_assoc; cbn [app]; do 2 f_equal; f_equal; f_equal; rewrite app_assoc, <- NX; reflexivity).
  assert (CX : cutOn 10 x = None).
  { destruct (cutOn 10 x) as [[u v]|] eqn:E; [|reflexivity]. apply (cutOn_more _ y) in E. rewrite <- NX, CB in E. discriminate E. }
  assert (NE : Forall (fun p : bytes => p <> []) [rekeyInput old new]) by (constructor; [|constructor]; intros Q; unfold rekeyInput in Q; apply app_eq_nil in Q as [_ Q]; discriminate Q).
  assert (S1 : scan (newScanner [rekeyInput old new]) = (Some (mkSl 1 0 n), mkScan [[]] d (n + 1) 4096 false false [y ++ [10]])).
  { unfold scan. rewrite (first_loop _ _ NE). unfold scRead at 1. cbn [scIn scBuf scEnd scOld scStart scEof scLong]. cbv zeta. rewrite lenN_zeros, N.sub_0_r, RI. rewrite takeN_app by exact LD. rewrite dropN_app by exact LD. rewrite lenN_app, LD.
    replace (4096 + lenN (y ++ [10]) <=? 4096) with false by (symmetry; apply N.leb_gt; rewrite lenN_app; change (lenN [10]) with 1; lia). rewrite takeN_0, !N.add_0_l. cbn [app].
    replace (dropN 4096 zeros) with (@nil N) by (symmetry; rewrite <- lenN_zeros; apply (dropN_all zeros); lia). rewrite app_nil_r. apply loop_hit with (b := new ++ [10] ++ x); auto; [|lia]. rewrite dropN_0, N.sub_0_r, takeN_all by lia. reflexivity. }
  assert (DO : dropN (n + 1) d = new ++ [10] ++ x) by (unfold d; rewrite app_assoc; apply dropN_app; rewrite lenN_app; reflexivity).
  assert (S2 : scan (mkScan [[]] d (n + 1) 4096 false false [y ++ [10]]) = (Some (mkSl 1 (n + 1) n), mkScan [[]] d (2 * n + 2) 4096 false false [y ++ [10]])).
  { unfold scan. assert (HD : takeN (4096 - (n + 1)) (dropN (n + 1) d) = new ++ 10 :: x) by (rewrite DO; apply takeN_all; change (lenN (new ++ 10 :: x) <= 4096 - (n + 1)); rewrite lenN_app, lenN_cons, LX; unfold k; lia). rewrite (loop_hit _ _ _ _ _ _ _ _ new x HD CB RB ltac:(lia)). rewrite LL. replace (n + 1 + (n + 1)) with (2 * n + 2) by lia. reflexivity. }
  set (s2 := mkScan [[]] d (2 * n + 2) 4096 false false [y ++ [10]]) in *.
  assert (D2 : scData s2 = x).
  { unfold scData, s2; cbn [scStart scEnd scBuf]. replace (2 * n + 2) with ((n + 1) + (n + 1)) at 2 by lia. rewrite <- dropN_dropN, DO, app_assoc. rewrite dropN_app by (rewrite lenN_app, LL; reflexivity). apply takeN_all. unfold k in LX. lia. }
  set (buf := x ++ o2 ++ [10] ++ new ++ [10] ++ x). assert (LB : lenN buf = 4096) by (unfold buf; rewrite !lenN_app, LX, LO; change (lenN [10]) with 1; unfold k; lia).
  assert (G2 : scGrow (scShift s2) = Some (mkScan [[]] buf 0 k false false [y ++ [10]])).
  { unfold scShift. rewrite D2. unfold s2. cbn [scStart scEnd scBuf scOld scEof scLong scIn]. rewrite LD. replace (0 <? 2 * n + 2) with true by (symmetry; apply N.ltb_lt; lia). rewrite N.eqb_refl. cbn [orb andb].
    replace (x ++ dropN (lenN x) d) with buf by (unfold buf, d; rewrite LX; unfold o2; rewrite dropN_appl by exact KN; reflexivity). replace (4096 - (2 * n + 2)) with k by (unfold k; lia). unfold scGrow. cbn [scEnd scBuf]. rewrite LB. replace (k =? 4096) with false by (symmetry; apply N.eqb_neq; unfold k; lia). reflexivity. }
  set (buf2 := new ++ [10] ++ new ++ [10] ++ x).
  assert (S3 : scan s2 = (Some (mkSl 1 0 n), mkScan [[]] buf2 (n + 1) (n + 1) false false [])).
  { unfold scan. rewrite (loop_miss _ s2 _ ltac:(rewrite D2; exact CX) eq_refl G2). unfold scRead at 1. cbn [scIn scBuf scEnd scOld scStart scEof scLong]. cbv zeta. assert (LYT : lenN (y ++ [10]) = n - k + 1) by (rewrite lenN_app, LY; reflexivity). rewrite LB, (takeN_all (y ++ [10])) by (rewrite LYT; unfold k; lia).
    replace (lenN (y ++ [10]) <=? 4096 - k) with true by (symmetry; apply N.leb_le; rewrite LYT; unfold k; lia). rewrite LYT. replace (k + (n - k + 1)) with (n + 1) by lia.
    replace (takeN k buf) with x by (symmetry; unfold buf; apply takeN_app; exact LX). replace (dropN (n + 1) buf) with (new ++ [10] ++ x).
    2: { unfold buf. rewrite (app_assoc x), (app_assoc (x ++ o2)). symmetry. apply dropN_app. rewrite !lenN_app, LX, LO. change (lenN [10]) with 1. lia. }
    replace (x ++ (y ++ [10]) ++ new ++ [10] ++ x) with buf2 by (unfold buf2; rewrite NX at 1; rewrite <- !app_assoc; reflexivity). rewrite <- LL. apply loop_hit with (b := []); auto; [|lia]. rewrite dropN_0, N.sub_0_r. unfold buf2. rewrite app_assoc. rewrite takeN_app by (rewrite lenN_app; reflexivity). reflexivity. }
  unfold askRekey, readPass. rewrite S1. cbn [rbind]. rewrite S2. cbn [rbind]. rewrite S3. cbn [rbind]. unfold deref. cbn [slBuf slOff slLen scOld scBuf app nth]. unfold buf2. rewrite dropN_0, (takeN_app new) by exact LL. rewrite app_assoc, dropN_app by (rewrite lenN_app, LL; reflexivity). rewrite takeN_app by exact LL. rewrite beq_refl. reflexivity.
Qed.
