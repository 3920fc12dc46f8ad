From Verif Require Import Base Base64Model Base64Proofs IdentityModel.
Local Open Scope N_scope.

(* ---------------- the concrete Unicode instance -------------------- *)
Lemma go_lower_ascii c : c < 128 -> go_lower c = lower_ascii c.
Proof.
  intros H. unfold go_lower.
  destruct (N.eqb_spec c 0x23A); [lia|]. destruct (N.eqb_spec c 0x212A); [lia|].
  destruct (N.eqb_spec c 0x130); [lia|reflexivity].
Qed.
Lemma lower_ascii_idem c : lower_ascii (lower_ascii c) = lower_ascii c.
Proof.
  unfold lower_ascii. destruct ((65 <=? c) && (c <=? 90)) eqn:E.
  - destruct ((65 <=? c + 32) && (c + 32 <=? 90)) eqn:E2; [lia|reflexivity].
  - rewrite E; reflexivity.
Qed.
Lemma go_lower_idem c : go_lower (go_lower c) = go_lower c.
Proof.
  unfold go_lower at 2 3.
  destruct (N.eqb_spec c 0x23A); [reflexivity|]. destruct (N.eqb_spec c 0x212A); [reflexivity|].
  destruct (N.eqb_spec c 0x130); [reflexivity|].
  assert (lower_ascii c <> 0x23A /\ lower_ascii c <> 0x212A /\ lower_ascii c <> 0x130) as (A & B & C).
  { unfold lower_ascii. destruct ((65 <=? c) && (c <=? 90)) eqn:E; lia. }
  unfold go_lower. apply N.eqb_neq in A, B, C. rewrite A, B, C. apply lower_ascii_idem.
Qed.
Lemma go_lower_at c : go_lower c = 64 -> c = 64.
Proof.
  unfold go_lower, lower_ascii.
  destruct (N.eqb_spec c 0x23A); [discriminate|]. destruct (N.eqb_spec c 0x212A); [discriminate|].
  destruct (N.eqb_spec c 0x130); [discriminate|].
  destruct ((65 <=? c) && (c <=? 90)) eqn:E; lia.
Qed.
Definition goUnicode : Unicode :=
  {| lower := go_lower; lower_on_ascii := go_lower_ascii;
     lower_idem := go_lower_idem; lower_at := go_lower_at |}.

(* ---------------- specification vocabulary ------------------------- *)
Definition lpchar (c : rune) : Prop :=
  (97 <= c <= 122 /\ c <> 106) \/ 50 <= c <= 57 \/ c = 45 \/ c = 46.
Definition sepchar (c : rune) : Prop := c = 45 \/ c = 46.
(* no two separators next to each other, none at either end *)
Definition well_separated (s : list rune) : Prop :=
  (forall c t, s = c :: t -> ~ sepchar c) /\
  (forall c t, s = t ++ [c] -> ~ sepchar c) /\
  (forall a x y b, s = a ++ x :: y :: b -> ~ (sepchar x /\ sepchar y)).

(* ---------------- splitting --------------------------------------- *)
Lemma splitOn_app sep a b : ~ In sep a -> splitOn sep (a ++ sep :: b) = a :: splitOn sep b.
Proof.
  induction a as [|x a IH]; intros H; cbn [app splitOn].
  - now rewrite N.eqb_refl.
  - destruct (N.eqb_spec x sep); [subst; exfalso; apply H; now left|].
    rewrite IH; [reflexivity|]. intros Hx; apply H; now right.
Qed.
Lemma splitOn_none sep a : ~ In sep a -> splitOn sep a = [a].
Proof.
  induction a as [|x a IH]; intros H; cbn [splitOn]; [reflexivity|].
  destruct (N.eqb_spec x sep); [subst; exfalso; apply H; now left|].
  rewrite IH; [reflexivity|]. intros Hx; apply H; now right.
Qed.
Lemma splitOn_inv1 sep s p : splitOn sep s = [p] -> s = p /\ ~ In sep p.
Proof.
  revert p; induction s as [|x s IH]; intros p; cbn [splitOn].
  - intros E; inversion E. cbn; tauto.
  - destruct (N.eqb_spec x sep).
    + destruct s; cbn; [discriminate|]. destruct (_ =? _); [discriminate|]. destruct (splitOn sep s); discriminate.
    + destruct (splitOn sep s) as [|q qs] eqn:E; intros H; inversion H; subst.
      * destruct s; cbn in E; [discriminate|]. destruct (_ =? _); [discriminate|]. destruct (splitOn sep s); discriminate.
      * destruct (IH q eq_refl) as [-> Hq]. split; [reflexivity|]. cbn [In]. intuition congruence.
Qed.
Lemma splitOn_nonnil sep s : splitOn sep s <> [].
Proof.
  destruct s; cbn [splitOn]; [discriminate|]. destruct (_ =? _); [discriminate|].
  destruct (splitOn sep s); discriminate.
Qed.
Lemma splitOn_inv2 sep s a b : splitOn sep s = [a; b] -> s = a ++ sep :: b /\ ~ In sep a /\ ~ In sep b.
Proof.
  revert a; induction s as [|x s IH]; intros a; cbn [splitOn]; [discriminate|].
  destruct (N.eqb_spec x sep).
  - intros E; inversion E as [[E1 E2]]; subst. apply splitOn_inv1 in E2 as [-> Hb]. cbn; tauto.
  - destruct (splitOn sep s) as [|q qs] eqn:E; intros H; inversion H; subst.
    destruct (IH q eq_refl) as (-> & Ha & Hb). split; [reflexivity|]. cbn [In]. intuition congruence.
Qed.

Lemma split_inv s a b : split s = Ok (a, b) -> s = a ++ [64] ++ b /\ ~ In 64 a /\ ~ In 64 b.
Proof.
  unfold split. destruct (splitOn 64 s) as [|p [|q [|]]] eqn:E; try discriminate.
  intros H; inversion H; subst. apply splitOn_inv2 in E. exact E.
Qed.
Lemma split_ok a b : ~ In 64 a -> ~ In 64 b -> split (a ++ [64] ++ b) = Ok (a, b).
Proof.
  intros Ha Hb. unfold split. cbn [app]. rewrite splitOn_app by assumption. now rewrite splitOn_none.
Qed.

(* ---------------- the character map -------------------------------- *)
Lemma mapRune_lpchar r x : mapRune r = Some x -> lpchar x.
Proof.
  unfold mapRune, lpchar, dash, dot.
  destruct (N.eqb_spec r 48); [intros E; inversion E; lia|].
  destruct (N.eqb_spec r 49); [intros E; inversion E; lia|].
  destruct (N.eqb_spec r 106); [intros E; inversion E; lia|].
  destruct ((97 <=? r) && (r <=? 122)) eqn:E1; [intros E; inversion E; lia|].
  destruct ((50 <=? r) && (r <=? 57)) eqn:E2; [intros E; inversion E; lia|].
  destruct ((r =? 45) || (r =? 46)) eqn:E3; [intros E; inversion E; lia|discriminate].
Qed.
Lemma mapRune_fix c : lpchar c -> mapRune c = Some c.
Proof.
  unfold mapRune, lpchar, dash, dot. intros H.
  destruct (N.eqb_spec c 48); [lia|]. destruct (N.eqb_spec c 49); [lia|]. destruct (N.eqb_spec c 106); [lia|].
  destruct ((97 <=? c) && (c <=? 122)) eqn:E1; [reflexivity|].
  destruct ((50 <=? c) && (c <=? 57)) eqn:E2; [reflexivity|].
  destruct ((c =? 45) || (c =? 46)) eqn:E3; [reflexivity|lia].
Qed.
Lemma mapRune_sep r x : mapRune r = Some x -> (sepchar r <-> sepchar x) /\ (x = 45 <-> r = 45) /\ (x = 46 <-> r = 46).
Proof.
  unfold mapRune, sepchar, dash, dot.
  destruct (N.eqb_spec r 48); [intros E; inversion E; lia|].
  destruct (N.eqb_spec r 49); [intros E; inversion E; lia|].
  destruct (N.eqb_spec r 106); [intros E; inversion E; lia|].
  destruct ((97 <=? r) && (r <=? 122)) eqn:E1; [intros E; inversion E; lia|].
  destruct ((50 <=? r) && (r <=? 57)) eqn:E2; [intros E; inversion E; lia|].
  destruct ((r =? 45) || (r =? 46)) eqn:E3; [intros E; inversion E; lia|discriminate].
Qed.
Lemma mapRunes_lpchar s t : mapRunes s = Some t -> Forall lpchar t.
Proof.
  revert t; induction s as [|r s IH]; intros t; cbn [mapRunes]; [intros E; inversion E; constructor|].
  destruct (mapRune r) as [x|] eqn:E1; [|discriminate]. destruct (mapRunes s) as [u|]; [|discriminate].
  intros E; inversion E; subst. constructor; [eapply mapRune_lpchar; eassumption|auto].
Qed.
Lemma mapRunes_fix s : Forall lpchar s -> mapRunes s = Some s.
Proof. induction 1 as [|c s Hc Hs IH]; cbn [mapRunes]; [reflexivity|]. now rewrite mapRune_fix, IH. Qed.
Lemma mapRunes_length s t : mapRunes s = Some t -> List.length t = List.length s.
Proof.
  revert t; induction s as [|r s IH]; intros t; cbn [mapRunes]; [intros E; inversion E; reflexivity|].
  destruct (mapRune r); [|discriminate]. destruct (mapRunes s) as [u|]; [|discriminate].
  intros E; inversion E; subst. cbn. f_equal. auto.
Qed.

Lemma lpchar_props c : lpchar c -> c < 128 /\ isSpace c = false /\ lower_ascii c = c /\ c <> 64.
Proof.
  unfold lpchar, isSpace, lower_ascii. intros H.
  assert (c < 128) by lia. split; [assumption|]. split; [lia|]. split; [|lia].
  destruct ((65 <=? c) && (c <=? 90)) eqn:E; [lia|reflexivity].
Qed.

Lemma utf8len_ascii s : Forall (fun c => c < 128) s -> utf8len s = lenN s.
Proof.
  induction 1 as [|c s Hc Hs IH]; [reflexivity|]. cbn [utf8len]. rewrite lenN_cons, IH.
  unfold runelen. destruct (N.ltb_spec c 128); lia.
Qed.
Lemma utf8len_app a b : utf8len (a ++ b) = utf8len a + utf8len b.
Proof. induction a as [|c a IH]; cbn [app utf8len]; [lia|]. rewrite IH; lia. Qed.

Lemma trimLeftSpace_id s : Forall (fun c => isSpace c = false) s -> trimLeftSpace s = s.
Proof. destruct 1 as [|c s Hc]; cbn [trimLeftSpace]; [reflexivity|]. now rewrite Hc. Qed.
Lemma trimSpace_id s : Forall (fun c => isSpace c = false) s -> trimSpace s = s.
Proof.
  intros H. unfold trimSpace. rewrite (trimLeftSpace_id s) by assumption.
  rewrite trimLeftSpace_id; [apply rev_involutive|]. apply Forall_rev; assumption.
Qed.

(* contains2 / last are insensitive to the character map as long as separators
   are kept apart. *)
Lemma contains2_map a b s t : (a = 45 \/ a = 46) -> (b = 45 \/ b = 46) ->
  mapRunes s = Some t -> contains2 a b t = contains2 a b s.
Proof.
  intros Ha Hb. revert t; induction s as [|x s IH]; intros t; cbn [mapRunes]; [intros E; inversion E; reflexivity|].
  destruct (mapRune x) as [x'|] eqn:E1; [|discriminate]. destruct (mapRunes s) as [t'|] eqn:E2; [|discriminate].
  intros E; inversion E; subst; clear E. specialize (IH t' eq_refl).
  destruct s as [|y s]; cbn [mapRunes] in E2; [inversion E2; reflexivity|].
  destruct (mapRune y) as [y'|] eqn:E3; [|discriminate]. destruct (mapRunes s) as [t''|] eqn:E4; [|discriminate].
  inversion E2; subst; clear E2.
  change (((x' =? a) && (y' =? b)) || contains2 a b (y' :: t'') = ((x =? a) && (y =? b)) || contains2 a b (y :: s)).
  rewrite IH. f_equal.
  apply mapRune_sep in E1 as (_ & A1 & A2). apply mapRune_sep in E3 as (_ & B1 & B2).
  assert ((x' =? a) = (x =? a)) as ->.
  { destruct Ha as [-> | ->]; apply eq_true_iff_eq; rewrite !N.eqb_eq; assumption. }
  assert ((y' =? b) = (y =? b)) as ->; [|reflexivity].
  destruct Hb as [-> | ->]; apply eq_true_iff_eq; rewrite !N.eqb_eq; assumption.
Qed.
Lemma last_map s t : mapRunes s = Some t -> s <> [] -> mapRune (last s 0) = Some (last t 0).
Proof.
  revert t; induction s as [|x s IH]; intros t; cbn [mapRunes]; [congruence|].
  destruct (mapRune x) as [x'|] eqn:E1; [|discriminate]. destruct (mapRunes s) as [t'|] eqn:E2; [|discriminate].
  intros E _; inversion E; subst; clear E. destruct s as [|y s].
  - cbn in E2; inversion E2; subst. exact E1.
  - specialize (IH t' eq_refl ltac:(discriminate)).
    destruct t' as [|y' t']. { apply mapRunes_length in E2; discriminate. }
    exact IH.
Qed.

Lemma contains2_spec a b s : contains2 a b s = false ->
  forall p x y q, s = p ++ x :: y :: q -> ~ (x = a /\ y = b).
Proof.
  intros H p. revert s H; induction p as [|z p IH]; intros s H x y q E [-> ->]; subst s.
  - cbn [app contains2] in H. rewrite !N.eqb_refl in H. discriminate.
  - destruct p as [|z2 p].
    + cbn [app contains2 tl] in H. apply orb_false_iff in H as [_ H].
      rewrite !N.eqb_refl in H. discriminate.
    + change (((z =? a) && (z2 =? b)) || contains2 a b ((z2 :: p) ++ a :: b :: q) = false) in H.
      apply orb_false_iff in H as [_ H]. eapply (IH _ H); [reflexivity|auto].
Qed.

Section WithU.
  Variable U : Unicode.

  Lemma toLower_ascii s : Forall (fun c => c < 128) s -> toLower U s = map lower_ascii s.
  Proof. unfold toLower; induction 1 as [|c s Hc Hs IH]; cbn [map]; [reflexivity|]. now rewrite IH, lower_on_ascii. Qed.

  Lemma toLower_lp s : Forall lpchar s -> toLower U s = s.
  Proof.
    intros H. rewrite toLower_ascii.
    - induction H as [|c s Hc Hs IH]; cbn [map]; [reflexivity|].
      rewrite IH. f_equal. apply lpchar_props; assumption.
    - eapply Forall_impl; [|exact H]. intros c Hc. apply lpchar_props; assumption.
  Qed.

  (* everything MapLocalpart guarantees about its result *)
  Lemma mapLocalpart_inv lp m : mapLocalpart U lp = Ok m ->
    Forall lpchar m /\ well_separated m /\ 3 <= lenN m <= 64
    /\ (exists c0 t, m = c0 :: t /\ (c0 =? dash) = false /\ (c0 =? dot) = false)
    /\ (last m 0 =? dash) = false /\ (last m 0 =? dot) = false
    /\ contains2 dash dash m = false /\ contains2 dash dot m = false
    /\ contains2 dot dash m = false /\ contains2 dot dot m = false.
  Proof.
    unfold mapLocalpart. set (l := toLower U (trimSpace lp)).
    destruct (N.ltb_spec (utf8len l) 3) as [|Hlen]; [discriminate|].
    destruct l as [|c0 l0] eqn:El; [discriminate|]. rewrite <- El in *.
    destruct (c0 =? dash) eqn:E0; [discriminate|]. destruct (c0 =? dot) eqn:E0'; [discriminate|].
    destruct (last l 0 =? dash) eqn:E1; [discriminate|]. destruct (last l 0 =? dot) eqn:E1'; [discriminate|].
    destruct (contains2 dash dash l) eqn:C1; [discriminate|]. destruct (contains2 dash dot l) eqn:C2; [discriminate|].
    destruct (contains2 dot dash l) eqn:C3; [discriminate|]. destruct (contains2 dot dot l) eqn:C4; [discriminate|].
    destruct (mapRunes l) as [t|] eqn:M; [|discriminate].
    destruct (N.ltb_spec 64 (utf8len t)) as [|H64]; [discriminate|].
    intros E; inversion E; subst m; clear E.
    pose proof (mapRunes_lpchar _ _ M) as Hlp.
    assert (Forall (fun c => c < 128) t) as Hascii.
    { eapply Forall_impl; [|exact Hlp]. intros c Hc. apply lpchar_props; assumption. }
    assert (Forall (fun c => c < 128) l) as Hlascii.
    { clear -M. revert t M. induction l as [|r s IH]; intros t; cbn [mapRunes]; [constructor|].
      destruct (mapRune r) as [x|] eqn:E1; [|discriminate]. destruct (mapRunes s) as [u|]; [|discriminate].
      intros _. constructor; [|eauto].
      unfold mapRune, dash, dot in E1.
      destruct (N.eqb_spec r 48); [lia|]. destruct (N.eqb_spec r 49); [lia|]. destruct (N.eqb_spec r 106); [lia|].
      destruct ((97 <=? r) && (r <=? 122)) eqn:X1; [lia|].
      destruct ((50 <=? r) && (r <=? 57)) eqn:X2; [lia|].
      destruct ((r =? 45) || (r =? 46)) eqn:X3; [lia|discriminate]. }
    rewrite utf8len_ascii in Hlen, H64 by assumption.
    pose proof (mapRunes_length _ _ M) as HL.
    assert (lenN t = lenN l) as HLN by (unfold lenN; now rewrite HL).
    assert (exists t0 tt, t = t0 :: tt /\ mapRune c0 = Some t0) as (t0 & tt & Et & Mt).
    { rewrite El in M. cbn [mapRunes] in M. destruct (mapRune c0) as [x|]; [|discriminate].
      destruct (mapRunes l0) as [u|]; [|discriminate]. inversion M; subst; eauto. }
    pose proof (mapRune_sep _ _ Mt) as (S0 & D0 & P0).
    assert (mapRune (last l 0) = Some (last t 0)) as ML by (apply last_map; [assumption|rewrite El; discriminate]).
    pose proof (mapRune_sep _ _ ML) as (S1 & D1 & P1).
    unfold dash, dot in *.
    rewrite N.eqb_neq in E0, E0', E1, E1'.
    rewrite <- (contains2_map 45 45 l t) in C1 by (auto; tauto).
    rewrite <- (contains2_map 45 46 l t) in C2 by (auto; tauto).
    rewrite <- (contains2_map 46 45 l t) in C3 by (auto; tauto).
    rewrite <- (contains2_map 46 46 l t) in C4 by (auto; tauto).
    split; [exact Hlp|]. split.
    { split; [|split].
      - intros c u E. rewrite Et in E; inversion E; subst. unfold sepchar in *. tauto.
      - intros c u E. rewrite E, last_last in *. unfold sepchar in *. tauto.
      - intros a x y b E [Hx Hy].
        pose proof (contains2_spec _ _ _ C1 a x y b E). pose proof (contains2_spec _ _ _ C2 a x y b E).
        pose proof (contains2_spec _ _ _ C3 a x y b E). pose proof (contains2_spec _ _ _ C4 a x y b E).
        unfold sepchar in *. tauto. }
    split; [lia|]. split.
    { exists t0, tt. rewrite !N.eqb_neq. repeat split; [assumption|tauto|tauto]. }
    rewrite !N.eqb_neq. repeat split; try assumption; tauto.
  Qed.

  Lemma mapLocalpart_fix lp m : mapLocalpart U lp = Ok m -> mapLocalpart U m = Ok m.
  Proof.
    intros H. apply mapLocalpart_inv in H as (Hlp & _ & Hlen & (c0 & t & Em & E0 & E0') & E1 & E1' & C1 & C2 & C3 & C4).
    unfold mapLocalpart.
    assert (Forall (fun c => c < 128) m) as Ha
      by (eapply Forall_impl; [|exact Hlp]; intros c Hc; apply lpchar_props; assumption).
    rewrite trimSpace_id by (eapply Forall_impl; [|exact Hlp]; intros c Hc; apply lpchar_props; assumption).
    rewrite toLower_lp by assumption. rewrite utf8len_ascii by assumption.
    destruct (N.ltb_spec (lenN m) 3); [lia|].
    rewrite Em at 1. rewrite E0, E0', E1, E1', C1, C2, C3, C4.
    rewrite mapRunes_fix by assumption. rewrite utf8len_ascii by assumption.
    destruct (N.ltb_spec 64 (lenN m)); [lia|reflexivity].
  Qed.

  Lemma toLower_idem s : toLower U (toLower U s) = toLower U s.
  Proof. unfold toLower. rewrite map_map. apply map_ext. intros; apply lower_idem. Qed.
  Lemma toLower_no_at s : ~ In 64 s -> ~ In 64 (toLower U s).
  Proof.
    intros H X. unfold toLower in X. apply in_map_iff in X as (c & Hc & Hin). apply lower_at in Hc; subst. contradiction.
  Qed.

  Lemma imap_inv x y : imap U x = Ok y -> exists lp dom mlp,
    x = lp ++ [64] ++ dom /\ ~ In 64 lp /\ ~ In 64 dom /\ mapLocalpart U lp = Ok mlp
    /\ y = mlp ++ [64] ++ toLower U dom /\ utf8len x <= MaxLen.
  Proof.
    unfold imap. destruct (N.ltb_spec MaxLen (utf8len x)); [discriminate|].
    destruct (split x) as [[lp dom]|e|] eqn:S; cbn [rbind]; try discriminate.
    apply split_inv in S as (-> & Hl & Hd).
    destruct (mapLocalpart U lp) as [mlp|e|] eqn:M; cbn [rbind]; try discriminate.
    intros E; inversion E; subst. exists lp, dom, mlp. auto 7.
  Qed.

  Lemma imap_fix x y : imap U x = Ok y -> utf8len y <= MaxLen -> imap U y = Ok y.
  Proof.
    intros H Hy. apply imap_inv in H as (lp & dom & mlp & -> & Hl & Hd & M & -> & Hx).
    unfold imap. destruct (N.ltb_spec MaxLen (utf8len (mlp ++ [64] ++ toLower U dom))); [lia|].
    pose proof (mapLocalpart_inv _ _ M) as (Hlp & _).
    rewrite split_ok.
    - cbn [rbind]. rewrite (mapLocalpart_fix _ _ M). cbn [rbind]. unfold mapDomain. now rewrite toLower_idem.
    - intros X. rewrite Forall_forall in Hlp. apply Hlp in X. unfold lpchar in X. lia.
    - apply toLower_no_at; assumption.
  Qed.

  Lemma mapRunes_utf8_le s t : mapRunes s = Some t -> Forall (fun c => c < 128) t.
  Proof.
    intros M. apply mapRunes_lpchar in M. eapply Forall_impl; [|exact M]. intros c Hc; apply lpchar_props; assumption.
  Qed.

  Lemma trimLeftSpace_lenN s : lenN (trimLeftSpace s) <= lenN s.
  Proof. induction s as [|c s IH]; cbn [trimLeftSpace]; [lia|]. destruct (isSpace c); lenN_simp; lia. Qed.
  Lemma trimSpace_lenN s : lenN (trimSpace s) <= lenN s.
  Proof.
    unfold trimSpace. rewrite lenN_rev. pose proof (trimLeftSpace_lenN (rev (trimLeftSpace s))) as H.
    rewrite lenN_rev in H. pose proof (trimLeftSpace_lenN s). lia.
  Qed.

  Lemma lenN_utf8len s : lenN s <= utf8len s.
  Proof.
    induction s as [|c s IH]; [reflexivity|]. cbn [utf8len]. rewrite lenN_cons. unfold runelen.
    destruct (c <? 128); [lia|]. destruct (c <? 2048); [lia|]. destruct (c <? 65536); lia.
  Qed.

  Lemma mapLocalpart_len lp m : mapLocalpart U lp = Ok m -> utf8len m <= utf8len lp.
  Proof.
    intros H. pose proof (mapLocalpart_inv _ _ H) as (Hlp & _).
    rewrite (utf8len_ascii m); [|eapply Forall_impl; [|exact Hlp]; intros c Hc; apply lpchar_props; assumption].
    etransitivity; [|apply lenN_utf8len].
    unfold mapLocalpart in H. set (l := toLower U (trimSpace lp)) in *.
    destruct (utf8len l <? 3); [discriminate|]. destruct l as [|c0 l0] eqn:El; [discriminate|].
    repeat match type of H with (if ?b then _ else _) = _ => destruct b; [discriminate|] end.
    destruct (mapRunes (c0 :: l0)) as [t|] eqn:M; [|discriminate]. destruct (64 <? utf8len t); [discriminate|].
    inversion H; subst. apply mapRunes_length in M. rewrite <- El in M. unfold l, toLower in M. rewrite map_length in M.
    pose proof (trimSpace_lenN lp). unfold lenN in *. lia.
  Qed.

  (* domains whose lower-case form is not longer: the mapping is idempotent *)
  Lemma imap_idem x y : (forall c, In c x -> runelen (lower U c) <= runelen c) ->
    imap U x = Ok y -> imap U y = Ok y.
  Proof.
    intros Hc H. apply imap_fix with (x := x); [assumption|].
    apply imap_inv in H as (lp & dom & mlp & -> & Hl & Hd & M & -> & Hx).
    rewrite !utf8len_app in *. apply mapLocalpart_len in M.
    assert (utf8len (toLower U dom) <= utf8len dom) as X; [|lia].
    assert (forall c, In c dom -> runelen (lower U c) <= runelen c) as Hc'
      by (intros c Hin; apply Hc; apply in_or_app; right; apply in_or_app; now right).
    clear -Hc'. induction dom as [|c d IH]; [reflexivity|]. unfold toLower in *. cbn [map utf8len].
    pose proof (Hc' c (or_introl eq_refl)). specialize (IH (fun z Hz => Hc' z (or_intror Hz))). lia.
  Qed.
  Lemma runelen_lower_ascii c : c < 128 -> runelen (lower U c) <= runelen c.
  Proof.
    intros H. rewrite lower_on_ascii by assumption. unfold lower_ascii, runelen.
    destruct ((65 <=? c) && (c <=? 90)) eqn:E.
    - destruct (N.ltb_spec (c + 32) 128); [|lia]. destruct (N.ltb_spec c 128); lia.
    - destruct (N.ltb_spec c 128); lia.
  Qed.
End WithU.

(* ---------------- look-alikes ------------------------------------- *)
(* Two characters a reader may confuse: same letter in different case, or one
   of the pairs 0/o, 1/l, j/i (in either case). *)
Inductive look : rune -> rune -> Prop :=
| look_refl c : look c c
| look_case c : 65 <= c <= 90 -> look c (c + 32)
| look_0 : look 48 111
| look_1 : look 49 108
| look_j : look 106 105
| look_sym a b : look a b -> look b a
| look_trans a b c : look a b -> look b c -> look a c.

Definition canon (c : rune) : option rune := mapRune (lower_ascii c).
Lemma look_canon a b : look a b -> canon a = canon b.
Proof.
  induction 1; try congruence; try reflexivity.
  unfold canon. f_equal. unfold lower_ascii.
  destruct ((65 <=? c) && (c <=? 90)) eqn:E; [|lia].
  destruct ((65 <=? c + 32) && (c + 32 <=? 90)) eqn:E2; [lia|reflexivity].
Qed.
Lemma look_ascii a b : look a b -> (a < 128 <-> b < 128) /\ (isSpace a = isSpace b)
   /\ (a = 64 <-> b = 64) /\ (lower_ascii a = 45 <-> lower_ascii b = 45) /\ (lower_ascii a = 46 <-> lower_ascii b = 46).
Proof.
  induction 1 as [c|c Hc| | | |a b _ IH|a b c _ IH1 _ IH2].
  - tauto.
  - unfold isSpace, lower_ascii.
    destruct ((65 <=? c) && (c <=? 90)) eqn:E; [|lia].
    destruct ((65 <=? c + 32) && (c + 32 <=? 90)) eqn:E2; [lia|]. repeat split; try lia.
  - repeat split; intros X; try discriminate X; try reflexivity.
  - repeat split; intros X; try discriminate X; try reflexivity.
  - repeat split; intros X; try discriminate X; try reflexivity.
  - destruct IH as (? & ? & ? & ? & ?). split; [tauto|split; [congruence|tauto]].
  - destruct IH1 as (? & ? & ? & ? & ?). destruct IH2 as (? & ? & ? & ? & ?). split; [tauto|split; [congruence|tauto]].
Qed.

Lemma Forall2_look_trimLeft a b : Forall2 look a b -> Forall2 look (trimLeftSpace a) (trimLeftSpace b).
Proof.
  induction 1 as [|x y a b H Hab IH]; cbn [trimLeftSpace]; [constructor|].
  pose proof (look_ascii _ _ H) as (_ & <- & _). destruct (isSpace x); [exact IH|constructor; assumption].
Qed.
Lemma Forall2_look_rev a b : Forall2 look a b -> Forall2 look (rev a) (rev b).
Proof.
  induction 1 as [|x y a b H Hab IH]; cbn [rev]; [constructor|]. apply Forall2_app; [exact IH|constructor; [exact H|constructor]].
Qed.
Lemma Forall2_look_trim a b : Forall2 look a b -> Forall2 look (trimSpace a) (trimSpace b).
Proof. intros H. unfold trimSpace. apply Forall2_look_rev, Forall2_look_trimLeft, Forall2_look_rev, Forall2_look_trimLeft, H. Qed.

Lemma trim_in_ascii s : Forall (fun c => c < 128) s -> Forall (fun c => c < 128) (trimSpace s).
Proof.
  assert (forall s, Forall (fun c => c < 128) s -> Forall (fun c => c < 128) (trimLeftSpace s)) as X.
  { clear s; intros s; induction 1 as [|c s Hc Hs IH]; cbn [trimLeftSpace]; [constructor|]. destruct (isSpace c); [exact IH|constructor; assumption]. }
  intros H. unfold trimSpace. apply Forall_rev, X, Forall_rev, X, H.
Qed.

Lemma mapRunes_look a b : Forall2 look a b -> mapRunes (map lower_ascii a) = mapRunes (map lower_ascii b).
Proof.
  induction 1 as [|x y a b H Hab IH]; [reflexivity|]. cbn [map mapRunes].
  apply look_canon in H. unfold canon in H. now rewrite H, IH.
Qed.
Lemma contains2_look p q a b : (p = 45 \/ p = 46) -> (q = 45 \/ q = 46) -> Forall2 look a b ->
  contains2 p q (map lower_ascii a) = contains2 p q (map lower_ascii b).
Proof.
  intros Hp Hq. induction 1 as [|x y a b H Hab IH]; [reflexivity|].
  destruct Hab as [|x2 y2 a b H2 Hab]; [reflexivity|].
  change ((((lower_ascii x =? p) && (lower_ascii x2 =? q)) || contains2 p q (map lower_ascii (x2 :: a)))
        = (((lower_ascii y =? p) && (lower_ascii y2 =? q)) || contains2 p q (map lower_ascii (y2 :: b)))).
  rewrite IH. f_equal.
  pose proof (look_ascii _ _ H) as (_ & _ & _ & A & B). pose proof (look_ascii _ _ H2) as (_ & _ & _ & A2 & B2).
  assert ((lower_ascii x =? p) = (lower_ascii y =? p)) as ->.
  { apply eq_true_iff_eq; rewrite !N.eqb_eq. destruct Hp as [-> | ->]; assumption. }
  assert ((lower_ascii x2 =? q) = (lower_ascii y2 =? q)) as ->; [|reflexivity].
  apply eq_true_iff_eq; rewrite !N.eqb_eq. destruct Hq as [-> | ->]; assumption.
Qed.
Lemma last_look a b : Forall2 look a b -> look (last a 0) (last b 0).
Proof.
  induction 1 as [|x y a b H Hab IH]; [apply look_refl|].
  destruct Hab; [exact H|exact IH].
Qed.
Lemma last_map_f {A B} (f : A -> B) s d : last (map f s) (f d) = f (last s d).
Proof. induction s as [|x [|y s] IH]; [reflexivity|reflexivity|exact IH]. Qed.
Lemma Forall2_lenN {A B} (R : A -> B -> Prop) a b : Forall2 R a b -> lenN a = lenN b.
Proof. induction 1 as [|x y a b H Hab IH]; [reflexivity|]. now rewrite !lenN_cons, IH. Qed.
Lemma lower_ascii_ascii s : Forall (fun c => c < 128) s -> Forall (fun c => c < 128) (map lower_ascii s).
Proof.
  induction 1 as [|c s Hc Hs IH]; cbn [map]; constructor; [|exact IH].
  unfold lower_ascii. destruct ((65 <=? c) && (c <=? 90)) eqn:E; lia.
Qed.

Section WithU2.
  Variable U : Unicode.
  Lemma mapLocalpart_look a b : Forall (fun c => c < 128) a -> Forall2 look a b ->
    mapLocalpart U a = mapLocalpart U b.
  Proof.
    intros Ha L.
    assert (Forall (fun c => c < 128) b) as Hb.
    { clear -Ha L. induction L as [|x y a b H Hab IH]; [constructor|]. inversion Ha; subst.
      constructor; [|auto]. apply look_ascii in H as (H & _). tauto. }
    unfold mapLocalpart.
    pose proof (Forall2_look_trim _ _ L) as LT. apply trim_in_ascii in Ha. apply trim_in_ascii in Hb.
    set (a' := trimSpace a) in *. set (b' := trimSpace b) in *. clearbody a' b'.
    rewrite !toLower_ascii by assumption.
    rewrite !(utf8len_ascii (map lower_ascii _)) by (apply lower_ascii_ascii; assumption).
    rewrite !lenN_map. rewrite (Forall2_lenN _ _ _ LT).
    destruct (lenN b' <? 3); [reflexivity|].
    rewrite (mapRunes_look _ _ LT).
    rewrite (contains2_look dash dash a' b'), (contains2_look dash dot a' b'),
      (contains2_look dot dash a' b'), (contains2_look dot dot a' b') by (unfold dash, dot; tauto).
    change 0 with (lower_ascii 0) at 1 2 3 4. rewrite !last_map_f.
    pose proof (look_ascii _ _ (last_look _ _ LT)) as (_ & _ & _ & LA & LB).
    assert ((lower_ascii (last a' 0) =? dash) = (lower_ascii (last b' 0) =? dash)) as ->
      by (apply eq_true_iff_eq; rewrite !N.eqb_eq; assumption).
    assert ((lower_ascii (last a' 0) =? dot) = (lower_ascii (last b' 0) =? dot)) as ->
      by (apply eq_true_iff_eq; rewrite !N.eqb_eq; assumption).
    destruct LT as [|x y a'' b'' H Hab]; [reflexivity|]. cbn [map].
    pose proof (look_ascii _ _ H) as (_ & _ & _ & A & B).
    assert ((lower_ascii x =? dash) = (lower_ascii y =? dash)) as ->
      by (apply eq_true_iff_eq; rewrite !N.eqb_eq; assumption).
    assert ((lower_ascii x =? dot) = (lower_ascii y =? dot)) as ->
      by (apply eq_true_iff_eq; rewrite !N.eqb_eq; assumption).
    reflexivity.
  Qed.

  Lemma Forall2_look_no_at a b : Forall2 look a b -> ~ In 64 a -> ~ In 64 b.
  Proof.
    induction 1 as [|x y a b H Hab IH]; cbn [In]; [tauto|].
    pose proof (look_ascii _ _ H) as (_ & _ & X & _). intuition.
  Qed.

  (* differing only in case or look-alikes in the local part and only in case
     in the domain *)
  Lemma imap_look lp lp' dom dom' m :
    Forall (fun c => c < 128) (lp ++ dom) -> Forall (fun c => c < 128) dom' ->
    Forall2 look lp lp' -> map lower_ascii dom = map lower_ascii dom' ->
    imap U (lp ++ [64] ++ dom) = Ok m -> imap U (lp' ++ [64] ++ dom') = Ok m.
  Proof.
    intros Ha Hd' L E H. apply imap_inv in H as (lp1 & dom1 & mlp & E1 & Hl1 & Hd1 & M & -> & Hx).
    apply Forall_app in Ha as [Ha Hd].
    assert (~ In 64 lp) as Nl.
    { clear -M E1 Hl1 Hd1. intros X. apply in_split in X as (u & v & ->).
      assert (In 64 dom1 \/ In 64 lp1) as [?|?]; [|contradiction|contradiction].
      rewrite <- app_assoc in E1. cbn [app] in E1.
      assert (count_occ N.eq_dec (u ++ 64 :: v ++ 64 :: dom) 64 = count_occ N.eq_dec (lp1 ++ 64 :: dom1) 64) as C by (now rewrite E1).
      rewrite !count_occ_app in C. cbn in C. rewrite count_occ_app in C. cbn in C.
      rewrite (proj1 (count_occ_not_In N.eq_dec lp1 64) Hl1) in C. rewrite (proj1 (count_occ_not_In N.eq_dec dom1 64) Hd1) in C. lia. }
    assert (~ In 64 dom) as Nd.
    { clear -M E1 Hl1 Hd1. intros X. apply in_split in X as (u & v & ->).
      assert (count_occ N.eq_dec (lp ++ [64] ++ u ++ 64 :: v) 64 = count_occ N.eq_dec (lp1 ++ [64] ++ dom1) 64) as C by (now rewrite E1).
      rewrite !count_occ_app in C. cbn in C.
      rewrite (proj1 (count_occ_not_In N.eq_dec lp1 64) Hl1) in C. rewrite (proj1 (count_occ_not_In N.eq_dec dom1 64) Hd1) in C. lia. }
    assert (split (lp ++ [64] ++ dom) = split (lp1 ++ [64] ++ dom1)) as ES by (now rewrite E1).
    rewrite !split_ok in ES by assumption. inversion ES; subst lp1 dom1; clear ES E1.
    assert (~ In 64 dom') as Nd'.
    { intros X. apply Nd. apply (in_map lower_ascii) in X. change (lower_ascii 64) with 64 in X. rewrite <- E in X.
      apply in_map_iff in X as (c & Hc & Hin). unfold lower_ascii in Hc.
      destruct ((65 <=? c) && (c <=? 90)) eqn:EE; [lia|]. now subst. }
    pose proof (Forall2_look_no_at _ _ L Nl) as Nl'.
    assert (Forall (fun c => c < 128) lp') as Hb.
    { clear -Ha L. induction L as [|x y a b H Hab IH]; [constructor|]. inversion Ha; subst.
      constructor; [|auto]. apply look_ascii in H as (H & _). tauto. }
    unfold imap. rewrite split_ok by assumption.
    assert (utf8len (lp' ++ [64] ++ dom') = utf8len (lp ++ [64] ++ dom)) as EL.
    { rewrite !utf8len_ascii; try (apply Forall_app; split; [assumption|apply Forall_app; split; [constructor; [lia|constructor]|assumption]]).
      lenN_simp. rewrite (Forall2_lenN _ _ _ L). apply (f_equal lenN) in E. rewrite !lenN_map in E. lia. }
    rewrite EL. destruct (N.ltb_spec MaxLen (utf8len (lp ++ [64] ++ dom))); [lia|].
    cbn [rbind]. rewrite <- (mapLocalpart_look lp lp') by assumption. rewrite M. cbn [rbind].
    unfold mapDomain. rewrite !toLower_ascii by assumption. now rewrite E.
  Qed.

  (* ---------------- message identifiers ---------------------------- *)
  Lemma cutOn_app sep a b : ~ In sep a -> cutOn sep (a ++ sep :: b) = Some (a, b).
  Proof.
    induction a as [|x a IH]; intros H; cbn [app cutOn].
    - now rewrite N.eqb_refl.
    - destruct (N.eqb_spec x sep); [subst; exfalso; apply H; now left|].
      rewrite IH; [reflexivity|]. intros Hx; apply H; now right.
  Qed.
  Lemma hexenc_no_dash b : wfb b -> ~ In dash (hexenc b).
  Proof.
    induction 1 as [|x b Hx Hb IH]; cbn [hexenc In]; [tauto|].
    pose proof (hexchar_cases (x / 16) ltac:(lia)). pose proof (hexchar_cases (x mod 16) ltac:(lia)). unfold dash in *.
    intros [E|[E|E]]; [lia|lia|tauto].
  Qed.
  Lemma msgid_parse_generate sender rand year month id :
    wfb rand -> ~ In dash year -> ~ In dash month ->
    msgidGenerate U sender rand year month = Ok id -> msgidParse id = sender.
  Proof.
    intros Hr Hy Hm. unfold msgidGenerate. destruct (negb (isMapped U sender)); [discriminate|].
    destruct (read_full 16 rand) as [[random r]|] eqn:R; [|discriminate].
    intros E; inversion E; subst; clear E. apply read_full_inv in R as [-> R].
    apply wfb_app in Hr as [Hr _].
    unfold msgidParse. cbn [splitN app]. rewrite cutOn_app by assumption.
    rewrite cutOn_app by assumption. rewrite cutOn_app by (apply hexenc_no_dash; assumption). reflexivity.
  Qed.
  Lemma msgid_generate_succeeds sender rand year month :
    isMapped U sender = true -> 16 <= lenN rand -> exists id, msgidGenerate U sender rand year month = Ok id.
  Proof.
    intros H L. unfold msgidGenerate. rewrite H. cbn [negb].
    destruct (read_full 16 rand) as [[random r]|] eqn:R; [eauto|].
    exfalso. unfold read_full in R. destruct (N.ltb_spec (lenN rand) 16); [lia|discriminate].
  Qed.
End WithU2.
