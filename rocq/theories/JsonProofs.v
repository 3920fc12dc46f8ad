(* json.Unmarshal reads back what json.Marshal wrote. *)
From Verif Require Import Base Base64Model Base64Proofs CodecModel CodecProofs JsonModel.
Local Open Scope N_scope.

Lemma eat_same c r : eat c (c :: r) = Some r.
Proof. unfold eat. now rewrite N.eqb_refl. Qed.
Lemma eat_other c x r : x <> c -> eat c (x :: r) = None.
Proof. intros H. unfold eat. destruct (N.eqb_spec x c); [contradiction|reflexivity]. Qed.
Lemma skip_ws_nows c r : is_ws c = false -> skip_ws (c :: r) = c :: r.
Proof. intros H. cbn [skip_ws]. now rewrite H. Qed.
Lemma hex_any_char n : n < 16 -> hex_any (hexchar n) = Some n.
Proof. intros H. unfold hex_any. now rewrite hexval_char. Qed.

Lemma pchars_esc f c s x t : pchars f s = Some (x, t) -> pchars (S f) (jesc c ++ s) = Some (c :: x, t).
Proof.
  intros H. unfold jesc.
  destruct (N.eqb_spec c 34) as [->|H1]; [cbn [app pchars]; cbv beta iota; cbn; now rewrite H|].
  destruct (N.eqb_spec c 92) as [->|H2]; [cbn [app pchars]; cbv beta iota; cbn; now rewrite H|].
  destruct (N.eqb_spec c 10) as [->|H3]; [cbn [app pchars]; cbv beta iota; cbn; now rewrite H|].
  destruct (N.eqb_spec c 13) as [->|H4]; [cbn [app pchars]; cbv beta iota; cbn; now rewrite H|].
  destruct (N.eqb_spec c 9) as [->|H5]; [cbn [app pchars]; cbv beta iota; cbn; now rewrite H|].
  destruct ((c <? 32) || (c =? 60) || (c =? 62) || (c =? 38)) eqn:E.
  - assert (Hc : c < 128) by lia. cbn [app pchars].
    change (92 =? 34) with false. change (92 =? 92) with true. cbv iota.
    change ((117 =? 34) || (117 =? 92) || (117 =? 47)) with false.
    change (117 =? 98) with false. change (117 =? 102) with false. change (117 =? 110) with false.
    change (117 =? 114) with false. change (117 =? 116) with false. change (117 =? 117) with true. cbv iota.
    unfold hex4. change (hex_any 48) with (Some 0).
    rewrite !hex_any_char by lia. cbv iota beta.
    assert (V : 0 * 4096 + 0 * 256 + c / 16 * 16 + c mod 16 = c) by (pose proof (N.div_mod c 16); lia).
    rewrite V.
    assert (U : utf8_16 c = [c]).
    { unfold utf8_16. replace ((0xD800 <=? c) && (c <? 0xE000)) with false by lia. cbv zeta.
      replace (c <? 128) with true by lia. reflexivity. }
    rewrite U, H. cbn [app].
    replace ((0xD800 <=? c)) with false by lia. cbn [andb].
    destruct (eats [92; 117] s) as [[|a [|b [|c2 [|d r]]]]|]; try reflexivity.
    destruct (hex_any a), (hex_any b), (hex_any c2), (hex_any d); reflexivity.
  - cbn [app pchars]. replace (c =? 34) with false by lia. replace (c =? 92) with false by lia.
    replace (c <? 32) with false by lia. now rewrite H.
Qed.
Lemma pchars_end f r : pchars (S f) (34 :: r) = Some ([], r).
Proof. reflexivity. Qed.
Lemma pchars_print s : forall f r, (List.length s < f)%nat -> pchars f (flat_map jesc s ++ 34 :: r) = Some (s, r).
Proof.
  induction s as [|c s IH]; intros f r Hf; cbn [List.length flat_map app] in *.
  - destruct f; [lia|]. reflexivity.
  - destruct f; [lia|]. rewrite <- app_assoc. apply pchars_esc. apply IH. lia.
Qed.
Lemma jesc_length c : (1 <= List.length (jesc c))%nat.
Proof.
  unfold jesc. repeat (match goal with |- context [if ?b then _ else _] => destruct b end; cbn; try lia).
Qed.
Lemma flat_map_jesc_length s : (List.length s <= List.length (flat_map jesc s))%nat.
Proof.
  induction s as [|c s IH]; cbn [flat_map List.length]; [lia|].
  rewrite app_length. pose proof (jesc_length c). lia.
Qed.
Lemma pstr_print s r : pstr (flat_map jesc s ++ 34 :: r) = Some (s, r).
Proof.
  unfold pstr. apply pchars_print. rewrite app_length. pose proof (flat_map_jesc_length s). cbn [List.length]. lia.
Qed.

(* What the printed form must satisfy: numbers are JSON numbers. *)
Definition num_wf (l : bytes) : Prop := num_ok l = true /\ forallb numchar l = true.
Inductive jwf : json -> Prop :=
| wf_null : jwf JNull
| wf_bool b : jwf (JBool b)
| wf_num l : num_wf l -> jwf (JNum l)
| wf_str s : jwf (JStr s)
| wf_arr l : Forall jwf l -> jwf (JArr l)
| wf_obj l : Forall (fun p => jwf (snd p)) l -> jwf (JObj l).

Fixpoint jsize (v : json) : nat :=
  match v with
  | JArr l => S ((fix go l := match l with [] => O | x :: l' => S (jsize x + go l') end) l)
  | JObj l => S ((fix go (l : list (bytes * json)) := match l with [] => O | (_, x) :: l' => S (jsize x + go l') end) l)
  | _ => 1%nat
  end.
Definition ssize (l : list json) : nat := fold_right (fun x n => S (jsize x + n)) O l.
Definition msize (l : list (bytes * json)) : nat := fold_right (fun p n => S (jsize (snd p) + n)) O l.
Lemma jsize_arr l : jsize (JArr l) = S (ssize l).
Proof. induction l as [|x l IH]; [reflexivity|]. cbn [jsize ssize fold_right] in *. fold (ssize l) in *. lia. Qed.
Lemma jsize_obj l : jsize (JObj l) = S (msize l).
Proof. induction l as [|[k x] l IH]; [reflexivity|]. cbn [jsize msize fold_right snd] in *. fold (msize l) in *. lia. Qed.

Fixpoint pelist (l : list json) : bytes :=
  match l with [] => [] | [x] => jprint x | x :: l' => jprint x ++ [44] ++ pelist l' end.
Fixpoint pmlist (l : list (bytes * json)) : bytes :=
  match l with
  | [] => []
  | [(k, x)] => jstr k ++ [58] ++ jprint x
  | (k, x) :: l' => jstr k ++ [58] ++ jprint x ++ [44] ++ pmlist l'
  end.
Lemma jprint_arr l : jprint (JArr l) = [91] ++ pelist l ++ [93].
Proof. reflexivity. Qed.
Lemma jprint_obj l : jprint (JObj l) = [123] ++ pmlist l ++ [125].
Proof. reflexivity. Qed.
Lemma pelist_cons x y l : pelist (x :: y :: l) = jprint x ++ [44] ++ pelist (y :: l).
Proof. reflexivity. Qed.
Lemma pmlist_cons k x y l : pmlist ((k, x) :: y :: l) = jstr k ++ [58] ++ jprint x ++ [44] ++ pmlist (y :: l).
Proof. reflexivity. Qed.

Lemma span_num_app a r : forallb numchar a = true -> (match r with [] => True | c :: _ => numchar c = false end) ->
  span_num (a ++ r) = (a, r).
Proof.
  induction a as [|c a IH]; cbn [app forallb]; intros H Hr.
  - destruct r as [|c r]; [reflexivity|]. cbn [span_num]. now rewrite Hr.
  - apply andb_true_iff in H as [H1 H2]. cbn [span_num]. rewrite H1. now rewrite IH.
Qed.
Lemma num_ok_head l : num_ok l = true -> exists c r, l = c :: r /\ (is_digit c = true \/ c = 45).
Proof.
  destruct l as [|c r]; [discriminate|]. intros H. exists c, r. split; [reflexivity|].
  unfold num_ok in H. apply andb_true_iff in H as [H _]. unfold eat in H.
  destruct (N.eqb_spec c 45); [now right|]. left. exact H.
Qed.
(* first character of a printed value *)
Lemma jprint_head v : jwf v -> exists c r, jprint v = c :: r /\ is_ws c = false /\ c <> 93 /\ c <> 125.
Proof.
  intros W. inversion W as [|b|l H|s|l H|l H]; subst.
  - eexists _, _. split; [reflexivity|]. repeat split; discriminate.
  - destruct b; eexists _, _; (split; [reflexivity|]); repeat split; discriminate.
  - destruct H as [H1 H2]. apply num_ok_head in H1 as (c & r & -> & Hc). exists c, r. split; [reflexivity|].
    unfold is_digit, is_ws in *. repeat split; lia.
  - eexists _, _. split; [reflexivity|]. repeat split; discriminate.
  - eexists _, _. split; [reflexivity|]. repeat split; discriminate.
  - eexists _, _. split; [reflexivity|]. repeat split; discriminate.
Qed.

(* A value may be followed by anything that is not a number character. *)
Definition delim (r : bytes) : Prop := match r with [] => True | c :: _ => numchar c = false end.

Lemma pval_print_aux : forall n,
  (forall v f r, (jsize v <= n)%nat -> jwf v -> (2 * jsize v <= f)%nat -> delim r -> pval f (jprint v ++ r) = Some (v, r)) /\
  (forall l f r, (ssize l <= n)%nat -> l <> [] -> Forall jwf l -> (2 * ssize l <= f)%nat -> pelems f (pelist l ++ 93 :: r) = Some (l, r)) /\
  (forall l f r, (msize l <= n)%nat -> l <> [] -> Forall (fun p => jwf (snd p)) l -> (2 * msize l <= f)%nat ->
     pmembers f (pmlist l ++ 125 :: r) = Some (l, r)).
Proof.
  induction n as [|n (IHv & IHe & IHm)].
  { split; [|split].
    - intros v f r H. destruct v; cbn [jsize] in H; lia.
    - intros l f r H N. destruct l; [congruence|]. cbn [ssize fold_right] in H. lia.
    - intros l f r H N. destruct l; [congruence|]. cbn [msize fold_right] in H. lia. }
  split; [|split].
  - intros v f r Hs W Hf Hd. destruct f; [destruct v; cbn [jsize] in Hf; lia|].
    inversion W as [|b|l H|s|l H|l H]; subst.
    + reflexivity.
    + destruct b; reflexivity.
    + destruct H as [H1 H2]. pose proof (num_ok_head l H1) as (c & rr & E & Hc).
      cbn [jprint]. cbn [pval].
      assert (Hw : is_ws c = false) by (unfold is_digit, is_ws in *; lia).
      rewrite E at 1. cbn [app]. rewrite skip_ws_nows by exact Hw.
      replace (c =? 34) with false by (unfold is_digit in *; lia).
      replace (c =? 91) with false by (unfold is_digit in *; lia).
      replace (c =? 123) with false by (unfold is_digit in *; lia).
      replace (c =? 110) with false by (unfold is_digit in *; lia).
      replace (c =? 116) with false by (unfold is_digit in *; lia).
      replace (c =? 102) with false by (unfold is_digit in *; lia).
      change (c :: rr ++ r) with ((c :: rr) ++ r). rewrite <- E.
      rewrite span_num_app by (auto; exact Hd). now rewrite H1.
    + cbn [jprint]. unfold jstr. cbn [app pval]. rewrite skip_ws_nows by reflexivity.
      change (34 =? 34) with true. cbv iota. rewrite <- app_assoc. cbn [app]. now rewrite pstr_print.
    + rewrite jsize_arr in *. rewrite jprint_arr. cbn [app pval]. rewrite skip_ws_nows by reflexivity.
      change (91 =? 34) with false. change (91 =? 91) with true. cbv iota.
      destruct l as [|x l].
      * cbn [pelist app]. rewrite skip_ws_nows by reflexivity. now rewrite eat_same.
      * assert (Hh : exists c t, pelist (x :: l) = c :: t /\ is_ws c = false /\ c <> 93).
        { inversion H as [|? ? Hx Hl]; subst. destruct (jprint_head x Hx) as (c & t & E & Hc & Hn & _).
          destruct l as [|y l]; [exists c, t; cbn [pelist]; auto|].
          rewrite pelist_cons, E. cbn [app]. eauto. }
        destruct Hh as (c & t & E & Hc & Hn). rewrite <- app_assoc. cbn [app].
        rewrite E at 1. cbn [app]. rewrite skip_ws_nows, eat_other by assumption.
        rewrite IHe; [reflexivity| | |assumption|]; [lia|discriminate|lia].
    + rewrite jsize_obj in *. rewrite jprint_obj. cbn [app pval]. rewrite skip_ws_nows by reflexivity.
      change (123 =? 34) with false. change (123 =? 91) with false. change (123 =? 123) with true. cbv iota.
      destruct l as [|x l].
      * cbn [pmlist app]. rewrite skip_ws_nows by reflexivity. now rewrite eat_same.
      * assert (Hh : exists t, pmlist (x :: l) = 34 :: t).
        { destruct x as [k x]. destruct l as [|y l]; [|rewrite pmlist_cons]; unfold jstr; cbn [pmlist app]; unfold jstr; cbn [app]; eauto. }
        destruct Hh as (t & E). rewrite <- app_assoc. cbn [app].
        rewrite E at 1. cbn [app]. rewrite skip_ws_nows, eat_other by (reflexivity || discriminate).
        rewrite IHm; [reflexivity| | |assumption|]; [lia|discriminate|lia].
  - intros l f r Hs Hn W Hf. destruct l as [|x l]; [congruence|].
    cbn [ssize fold_right] in Hs, Hf. fold (ssize l) in Hs, Hf. inversion W as [|? ? Wx Wl]; subst.
    destruct f; [lia|]. cbn [pelems]. destruct l as [|y l].
    + cbn [pelist]. rewrite IHv; [|lia|assumption|cbn [ssize fold_right] in Hf; lia|reflexivity].
      rewrite skip_ws_nows by reflexivity. rewrite eat_other by discriminate. now rewrite eat_same.
    + rewrite pelist_cons, <- !app_assoc. rewrite IHv; [|lia|assumption|lia|reflexivity].
      cbn [app]. rewrite skip_ws_nows by reflexivity. rewrite eat_same.
      rewrite IHe; [reflexivity|lia|discriminate|assumption|lia].
  - intros l f r Hs Hn W Hf. destruct l as [|[k x] l]; [congruence|].
    cbn [msize fold_right snd] in Hs, Hf. fold (msize l) in Hs, Hf. inversion W as [|? ? Wx Wl]; subst. cbn [snd] in Wx.
    destruct f; [lia|]. cbn [pmembers].
    assert (HS : forall t, eat 34 (skip_ws (jstr k ++ t)) = Some (flat_map jesc k ++ 34 :: t)).
    { intros t. unfold jstr. cbn [app]. rewrite skip_ws_nows by reflexivity. rewrite eat_same, <- app_assoc. reflexivity. }
    destruct l as [|y l].
    + cbn [pmlist]. rewrite <- !app_assoc. rewrite HS, pstr_print.
      cbn [app]. rewrite skip_ws_nows by reflexivity. rewrite eat_same.
      rewrite IHv; [|lia|assumption|lia|reflexivity].
      rewrite skip_ws_nows by reflexivity. rewrite eat_other by discriminate. now rewrite eat_same.
    + rewrite pmlist_cons, <- !app_assoc. rewrite HS, pstr_print.
      cbn [app]. rewrite skip_ws_nows by reflexivity. rewrite eat_same.
      rewrite IHv; [|lia|assumption|lia|reflexivity].
      cbn [app]. rewrite skip_ws_nows by reflexivity. rewrite eat_same.
      rewrite IHm; [reflexivity|lia|discriminate|assumption|lia].
Qed.

(* a printed value has at least as many characters as nodes *)
Lemma jprint_size : forall n v, (jsize v <= n)%nat -> jwf v -> (jsize v <= List.length (jprint v))%nat.
Proof.
  induction n as [|n IH]; intros v Hn W; [destruct v; cbn [jsize] in Hn; lia|].
  inversion W as [|b|l H|s|l H|l H]; subst.
  - cbn. lia.
  - destruct b; cbn; lia.
  - destruct H as [H1 _]. apply num_ok_head in H1 as (c & r & -> & _). cbn. lia.
  - cbn [jsize jprint]. unfold jstr. cbn [app List.length]. lia.
  - rewrite jsize_arr in *. rewrite jprint_arr. cbn [app List.length]. rewrite app_length. cbn [List.length].
    clear W. assert (ssize l <= S (List.length (pelist l)))%nat; [|lia].
    assert (Hn' : (ssize l <= n)%nat) by lia. clear Hn.
    induction l as [|x l IHl]; [cbn; lia|].
    cbn [ssize fold_right] in *. fold (ssize l) in *. inversion H as [|? ? Hx Hl]; subst.
    assert (Hx' := IH x ltac:(lia) Hx). specialize (IHl Hl ltac:(lia)).
    destruct l as [|y l]; [cbn [pelist ssize fold_right]; lia|].
    rewrite pelist_cons, !app_length. cbn [List.length]. lia.
  - rewrite jsize_obj in *. rewrite jprint_obj. cbn [app List.length]. rewrite app_length. cbn [List.length].
    clear W. assert (msize l <= S (List.length (pmlist l)))%nat; [|lia].
    assert (Hn' : (msize l <= n)%nat) by lia. clear Hn.
    induction l as [|[k x] l IHl]; [cbn; lia|].
    cbn [msize fold_right snd] in *. fold (msize l) in *. inversion H as [|? ? Hx Hl]; subst. cbn [snd] in Hx.
    assert (Hx' := IH x ltac:(lia) Hx). specialize (IHl Hl ltac:(lia)).
    destruct l as [|y l]; [cbn [pmlist msize fold_right]; rewrite !app_length; cbn [List.length]; lia|].
    rewrite pmlist_cons, !app_length. cbn [List.length]. lia.
Qed.
Theorem jparse_print v : jwf v -> jparse (jprint v) = Some v.
Proof.
  intros W. unfold jparse. pose proof (jprint_size _ v (Nat.le_refl _) W) as Hs.
  rewrite <- (app_nil_r (jprint v)) at 2.
  rewrite (proj1 (pval_print_aux (jsize v)) v); [reflexivity|lia|assumption| |exact I]. lia.
Qed.

Lemma dec_rev_digits f : forall u, forallb is_digit (dec_rev f u) = true.
Proof.
  induction f as [|f IH]; intros u; cbn [dec_rev]; [reflexivity|].
  destruct (u <? 10) eqn:E; cbn [forallb]; [rewrite andb_true_r; unfold is_digit; lia|].
  rewrite IH, andb_true_r. unfold is_digit. lia.
Qed.
Lemma decimal_digits u : forallb is_digit (decimal u) = true.
Proof.
  unfold decimal. apply forallb_forall. intros x Hx. apply in_rev in Hx.
  pose proof (dec_rev_digits (S (N.to_nat (N.log2 u))) u) as H. rewrite forallb_forall in H. auto.
Qed.
Lemma dec_rev_last f : forall u, 0 < u -> u < 2 ^ N.of_nat f -> dec_rev f u <> [] /\ last (dec_rev f u) 0 <> 48.
Proof.
  induction f as [|f IH]; intros u H0 Hu; [cbn in Hu; lia|]. cbn [dec_rev].
  destruct (N.ltb_spec u 10) as [H|H]; [split; [discriminate|cbn [last]; lia]|].
  assert (P : 2 ^ N.of_nat (S f) = 2 * 2 ^ N.of_nat f) by (rewrite Nat2N.inj_succ, N.pow_succ_r'; reflexivity).
  destruct (IH (u / 10)) as [A B]; [lia|lia|].
  split; [discriminate|]. destruct (dec_rev f (u / 10)) as [|d l] eqn:E; [congruence|].
  change (last ((48 + u mod 10) :: d :: l) 0) with (last (d :: l) 0). exact B.
Qed.
Lemma decimal_head u : 0 < u -> exists c r, decimal u = c :: r /\ c <> 48.
Proof.
  intros H. unfold decimal.
  assert (B : u < 2 ^ N.of_nat (S (N.to_nat (N.log2 u)))).
  { rewrite Nat2N.inj_succ, N2Nat.id. apply N.log2_spec; exact H. }
  destruct (dec_rev_last _ u H B) as [A L].
  destruct (rev (dec_rev (S (N.to_nat (N.log2 u))) u)) as [|c r] eqn:E.
  - apply (f_equal (@rev N)) in E. rewrite rev_involutive in E. elim A; exact E.
  - exists c, r. split; [reflexivity|].
    apply (f_equal (@rev N)) in E. rewrite rev_involutive in E. cbn [rev] in E. rewrite E in L.
    rewrite last_last in L. exact L.
Qed.
Lemma drop_digits_all s : forallb is_digit s = true -> drop_digits s = [].
Proof.
  induction s as [|c s IH]; cbn [forallb drop_digits]; [reflexivity|].
  intros H; apply andb_true_iff in H as [-> H]; auto.
Qed.
Lemma decimal_num_wf u : num_wf (decimal u).
Proof.
  split.
  - pose proof (decimal_digits u) as D. unfold num_ok.
    destruct (N.eq_dec u 0) as [->|Hu]; [reflexivity|].
    destruct (decimal_head u ltac:(lia)) as (c & r & E & Hc). rewrite E in *.
    cbn [forallb] in D. apply andb_true_iff in D as [D1 D2].
    rewrite eat_other by (unfold is_digit in D1; lia). cbv zeta. cbn [starts_digit]. rewrite D1.
    rewrite eat_other by exact Hc. cbn [drop_digits]. rewrite D1, drop_digits_all by exact D2. reflexivity.
  - pose proof (decimal_digits u) as D. apply forallb_forall. intros x Hx. rewrite forallb_forall in D.
    specialize (D x Hx). unfold numchar. now rewrite D.
Qed.
Lemma jwf_JN u : jwf (JN u).
Proof. constructor. apply decimal_num_wf. Qed.
Lemma dec_uint_JN b u : b <= 64 -> u < 2 ^ b -> dec_uint b (Some (JN u)) = Some u.
Proof.
  intros Hb Hu. cbn [dec_uint JN].
  assert (u < 2 ^ 64) by (eapply N.lt_le_trans; [exact Hu|apply N.pow_le_mono_r; lia]).
  rewrite parse_dec_decimal by assumption. destruct (N.ltb_spec u (2 ^ b)); [reflexivity|lia].
Qed.
Lemma dec_str_JStr s : dec_str (Some (JStr s)) = Some s.
Proof. reflexivity. Qed.

(* Lengths of printed values. *)
Definition escs (s : bytes) : N := lenN (flat_map jesc s).
(* a character that json.Marshal copies unchanged *)
Definition jplain (c : N) : bool := negb ((c =? 34) || (c =? 92) || (c <? 32) || (c =? 60) || (c =? 62) || (c =? 38)).
Lemma jesc_plain c : jplain c = true -> jesc c = [c].
Proof.
  unfold jplain, jesc. intros H.
  replace (c =? 34) with false by lia. replace (c =? 92) with false by lia.
  replace (c =? 10) with false by lia. replace (c =? 13) with false by lia. replace (c =? 9) with false by lia.
  replace ((c <? 32) || (c =? 60) || (c =? 62) || (c =? 38)) with false by lia. reflexivity.
Qed.
Lemma escs_plain s : forallb jplain s = true -> flat_map jesc s = s.
Proof.
  induction s as [|c s IH]; cbn [forallb flat_map]; [reflexivity|].
  intros H; apply andb_true_iff in H as [H1 H2]. rewrite jesc_plain, IH by assumption. reflexivity.
Qed.
Lemma lenN_jstr s : lenN (jstr s) = 2 + escs s.
Proof. unfold jstr, escs. lenN_simp. lia. Qed.
