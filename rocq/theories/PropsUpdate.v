(* C178-C180: the update from source installs the commit of the signed configuration. *)
From Verif Require Import Base CodecModel UpdateModel.
Delimit Scope string_scope with string.
Local Open Scope N_scope.

(* ---- specification ---- *)
Definition mutectrl : bytes := str "mutectrl".
(* what the configuration says *)
Definition commitOf (conf : bytes -> bytes) : bytes := conf (str "release.Commit").
(* a full commit hash: 40 lower-case hexadecimal digits *)
Definition fullHash (c : bytes) : Prop := lenN c = 40 /\ forall x, In x c -> 48 <= x <= 57 \/ 97 <= x <= 102.
(* a clean repository with a branch master *)
Definition sane (w : world) : Prop := rDirty (wRepo w) = false /\ exists c, assoc master (rBranches (wRepo w)) = Some c.
(* all programs do their work, and the commit is known after the pull *)
Definition works (c : bytes) (w : world) (e : env) : Prop :=
  eLook e = true /\ eStatus e = true /\ eMaster e = true /\ eHead e = true /\ eCommit e = true /\ eGen e = true
  /\ eGenerate e = true /\ eInst e = true /\ eBack e = true
  /\ exists m cs, ePull e = Some (m, cs) /\ (c = m \/ In c cs \/ In c (rCommits (wRepo w))).
(* an update is due: another commit, and not older than the running program *)
Definition due (parse : bytes -> option Z) (conf : bytes -> bytes) (rel date : bytes) : Prop :=
  rel <> commitOf conf /\ exists tr tb, parse (conf (str "release.Date")) = Some tr /\ parse date = Some tb /\ (tb <= tr)%Z.

Lemma hash_iff c : isHash c = true <-> fullHash c.
Proof.
  unfold isHash, fullHash. rewrite andb_true_iff, N.eqb_eq, forallb_forall. unfold hexDigit. split; intros [A B]; (split; [exact A|]); intros x I; specialize (B x I); lia.
Qed.
Lemma inList_In c l : inList c l = true <-> In c l.
Proof.
  unfold inList. rewrite existsb_exists. split.
  - intros (x & I & E). apply beq_spec in E as ->. exact I.
  - intros I. exists c. split; [exact I|apply beq_refl].
Qed.
Lemma step_ok {A} (r : res A * world) k w' : step r k = (Ok tt, w') -> exists a, fst r = Ok a /\ k a (snd r) = (Ok tt, w').
Proof. unfold step. destruct r as [[a| |] w]; cbn [fst snd]; intros H; try discriminate H. exists a. split; [reflexivity|exact H]. Qed.
Lemma onRepo_ok f w w' : onRepo f w = (Ok tt, w') -> exists r, f (wRepo w) = Ok r /\ w' = setRepo r w.
Proof.
  unfold onRepo. destruct (f (wRepo w)) as [r| |]; intros H; try discriminate H. apply pair_equal_spec in H as [_ <-]. exists r. split; reflexivity.
Qed.
Lemma checkout_ok ok name r r' : checkout ok name r = Ok r' -> exists h, resolve name r = Some h
  /\ r' = mkRepo (rBranches r) (rTags r) (rCommits r) h (rDirty r) /\ rDirty r = false /\ ok = true.
Proof.
  unfold checkout. destruct (resolve name r) as [h|]; [|discriminate]. destruct (ok && negb (rDirty r)) eqn:E; [|discriminate].
  intros H. apply andb_true_iff in E as [E1 E2]. apply negb_true_iff in E2. exists h. split; [reflexivity|]. split; [congruence|]. split; assumption.
Qed.
Lemma resolve_hash c r h : fullHash c -> resolve c r = Some h -> h = Detached c.
Proof.
  intros F. unfold resolve. rewrite (proj2 (hash_iff c) F). destruct (inList c (rCommits r)); [|discriminate]. congruence.
Qed.
Lemma resolve_master r h : resolve master r = Some h -> h = OnBranch master \/ exists c, assoc master (rBranches r) = None /\ h = Detached c.
Proof.
  unfold resolve. change (isHash master) with false. cbv iota. destruct (assoc master (rBranches r)); [intros E; left; congruence|].
  destruct (assoc master (rTags r)) as [c|]; [|discriminate]. intros E. right. exists c. split; [reflexivity|congruence].
Qed.

Section Props.
Variable cmds : bytes -> list bytes.
Lemma install_ok d pat nr w w' ok : install cmds ok d pat nr w = (Ok tt, w') -> exists c, headCommit (wRepo w) = Some c
  /\ wRepo w' = wRepo w /\ wHeadGo w' = wHeadGo w
  /\ (nr = true -> exists r, wHeadGo w = Some r /\ forall n, wBins w' n = if inList n (pat (cmds c)) then Some (mkBuild c r) else wBins w n)
  /\ (forall n, ~ In n (pat (cmds c)) -> wBins w' n = wBins w n).
Proof.
  unfold install. destruct (headCommit (wRepo w)) as [c|]; [|discriminate]. intros H. exists c. split; [reflexivity|].
  assert (forall b bins n, ~ In n (pat (cmds c)) -> putBins (pat (cmds c)) b bins n = bins n) as NB.
  { intros b bins n N. unfold putBins. destruct (inList n (pat (cmds c))) eqn:E; [|reflexivity]. elim N. apply inList_In. exact E. }
  destruct nr.
  - destruct (wHeadGo w) as [r|] eqn:EH; [|discriminate H]. destruct ok; [|discriminate H]. apply pair_equal_spec in H as [_ <-].
    cbn [wRepo wHeadGo wBins]. split; [reflexivity|]. split; [reflexivity|]. split; [|apply NB]. intros _. exists r. split; [reflexivity|]. reflexivity.
  - destruct ok; [|discriminate H]. apply pair_equal_spec in H as [_ <-].
    cbn [wRepo wHeadGo wBins]. split; [reflexivity|]. split; [reflexivity|]. split; [discriminate|apply NB].
Qed.
Lemma only_in n l : In n (onlyGenerate l) -> In n l.
Proof. unfold onlyGenerate. intros I. apply filter_In in I. apply I. Qed.
(* a successful run of the update *)
Lemma update_spec e c w w' : updateMuteFromSource cmds e c w = (Ok tt, w') ->
  exists src, (fullHash c -> src = c)
    /\ (forall n, In n (cmds src) -> wBins w' n = Some (mkBuild src src)) /\ (forall n, ~ In n (cmds src) -> wBins w' n = wBins w n)
    /\ wHeadGo w' = Some src /\ rDirty (wRepo w') = false
    /\ ((exists m, assoc master (rBranches (wRepo w)) = Some m) -> rHead (wRepo w') = OnBranch master).
Proof.
  unfold updateMuteFromSource. intros H. destruct (negb (eLook e)); [discriminate H|].
  apply step_ok in H as (a1 & E1 & H). cbn [fst snd] in E1, H.
  apply step_ok in H as (a2 & E2 & H). destruct (onRepo (checkout (eMaster e) master) w) as [x1 w1] eqn:W1. cbn [fst snd] in E2, H. subst x1. destruct a2.
  apply onRepo_ok in W1 as (r1 & C1 & ->). apply checkout_ok in C1 as (h1 & R1 & -> & D1 & _).
  apply step_ok in H as (a3 & E3 & H). match type of E3 with fst ?t = _ => destruct t as [x2 w2] eqn:W2 end. cbn [fst snd] in E3, H. subst x2. destruct a3.
  apply onRepo_ok in W2 as (r2 & P2 & ->). cbn [setRepo wRepo] in P2. unfold pull in P2. destruct (ePull e) as [[pc pcs]|]; [|discriminate P2].
  cbn [rHead rBranches rTags rCommits rDirty] in P2. destruct h1 as [b|]; [|discriminate P2]. apply (f_equal (fun x => match x with Ok y => y | _ => r2 end)) in P2. subst r2.
  apply step_ok in H as (head & E4 & H). cbn [fst snd setRepo wRepo] in E4, H.
  assert (head = pc) as ->.
  { unfold getHead, headCommit in E4. cbn [rHead rBranches assoc] in E4. rewrite beq_refl in E4. destruct (eHead e); [congruence|discriminate E4]. }
  set (r3 := mkRepo ((b, pc) :: rBranches (wRepo w)) (rTags (wRepo w)) (pc :: pcs ++ rCommits (wRepo w)) (OnBranch b) (rDirty (wRepo w))) in *.
  apply step_ok in H as (a5 & E5 & H). match type of E5 with fst ?t = _ => destruct t as [x3 w3] eqn:W3 end. cbn [fst snd] in E5, H. subst x3. destruct a5.
  assert (exists src, headCommit (wRepo w3) = Some src /\ (fullHash c -> src = c) /\ wBins w3 = wBins w /\ rDirty (wRepo w3) = false
          /\ rBranches (wRepo w3) = rBranches r3 /\ (beq pc c = true -> rHead (wRepo w3) = OnBranch b)) as (src & HS & HF & HB & HD & HBr & HH).
  { destruct (beq pc c) eqn:B; cbn [negb] in W3.
    - apply beq_spec in B as ->. apply pair_equal_spec in W3 as [_ <-]. exists c. cbn [setRepo wRepo wBins].
      split; [unfold headCommit, r3; cbn [rHead rBranches assoc]; rewrite beq_refl; reflexivity|]. split; [reflexivity|]. split; [reflexivity|].
      split; [exact D1|]. split; [reflexivity|]. reflexivity.
    - apply onRepo_ok in W3 as (r4 & C4 & ->). cbn [setRepo wRepo] in C4. apply checkout_ok in C4 as (h4 & R4 & -> & D4 & _). cbn [setRepo wRepo wBins].
      assert (exists src, headCommit (mkRepo (rBranches r3) (rTags r3) (rCommits r3) h4 (rDirty r3)) = Some src /\ (fullHash c -> src = c)) as (src & S1 & S2).
      { unfold resolve in R4. destruct (isHash c) eqn:IH.
        - destruct (inList c (rCommits r3)); [|discriminate R4]. exists c. assert (h4 = Detached c) as -> by congruence. split; [reflexivity|reflexivity].
        - assert (fullHash c -> False) as NF by (intros F; apply hash_iff in F; congruence).
          destruct (assoc c (rBranches r3)) as [x|] eqn:A; [exists x; assert (h4 = OnBranch c) as -> by congruence; split; [exact A|intros F; elim (NF F)]|].
          destruct (assoc c (rTags r3)) as [x|]; [|discriminate R4]. exists x. assert (h4 = Detached x) as -> by congruence. split; [reflexivity|intros F; elim (NF F)]. }
      exists src. split; [exact S1|]. split; [exact S2|]. split; [reflexivity|]. split; [exact D4|]. split; [reflexivity|discriminate]. }
  apply step_ok in H as (a6 & E6 & H). match type of E6 with fst ?t = _ => destruct t as [x4 w4] eqn:W4 end. cbn [fst snd] in E6, H. subst x4. destruct a6.
  apply install_ok in W4 as (c4 & I1 & I2 & I3 & _ & I5). rewrite HS in I1. injection I1 as <-.
  apply step_ok in H as (a7 & E7 & H). match type of E7 with fst ?t = _ => destruct t as [x5 w5] eqn:W5 end. cbn [fst snd] in E7, H. subst x5. destruct a7.
  unfold generate in W5. rewrite I2, HS in W5. destruct (eGenerate e); [|discriminate W5]. apply pair_equal_spec in W5 as [_ <-].
  apply step_ok in H as (a8 & E8 & H). match type of E8 with fst ?t = _ => destruct t as [x6 w6] eqn:W6 end. cbn [fst snd] in E8, H. subst x6. destruct a8.
  apply install_ok in W6 as (c6 & J1 & J2 & J3 & J4 & J5). cbn [wRepo wHeadGo wBins] in J1, J2, J3, J4, J5.
  assert (c6 = src) as -> by congruence. destruct (J4 eq_refl) as (rr & J6 & J7). injection J6 as <-.
  exists src. split; [exact HF|].
  assert (wBins w' = wBins w6 /\ wHeadGo w' = wHeadGo w6 /\ rDirty (wRepo w') = false
          /\ ((exists m, assoc master (rBranches (wRepo w)) = Some m) -> rHead (wRepo w') = OnBranch master)) as (K1 & K2 & K3 & K4).
  { assert ((exists m, assoc master (rBranches (wRepo w)) = Some m) -> b = master) as BM.
    { intros (m & M). apply resolve_master in R1 as [R1|(x & R1 & _)]; [congruence|congruence]. }
    destruct (beq pc c) eqn:B; cbn [negb] in H.
    - apply pair_equal_spec in H as [_ <-]. split; [reflexivity|]. split; [reflexivity|]. rewrite J2. split; [exact HD|]. intros M. rewrite (HH eq_refl), (BM M). reflexivity.
    - apply onRepo_ok in H as (r7 & C7 & ->). apply checkout_ok in C7 as (h7 & R7 & -> & D7 & _). cbn [setRepo wRepo wBins wHeadGo rDirty rHead].
      split; [reflexivity|]. split; [reflexivity|]. split; [exact D7|]. intros M. apply resolve_master in R7 as [R7|(x & R7 & _)]; [exact R7|].
      rewrite J2, HBr in R7. unfold r3 in R7. cbn [rBranches assoc] in R7. rewrite (BM M), beq_refl in R7. discriminate R7. }
  rewrite K1, K2. split; [intros n I; rewrite J7, (proj2 (inList_In _ _) I); reflexivity|].
  split; [intros n N; rewrite (J5 n N), (I5 n), HB; [reflexivity|]; intros I; apply N, only_in; exact I|].
  split; [exact J3|]. split; [exact K3|exact K4].
Qed.

(* C178.  After an update every command of the commit named in the configuration is installed, built from exactly that commit and
   with that commit as its release; other programs are not touched and the repository is clean and on master again. *)
Theorem C178_partial : forall parse e conf rel date w w',
  upkeepUpdate cmds parse e conf rel date w = (Updated, w') -> fullHash (commitOf conf) ->
  (forall n, In n (cmds (commitOf conf)) -> wBins w' n = Some (mkBuild (commitOf conf) (commitOf conf)))
  /\ (forall n, ~ In n (cmds (commitOf conf)) -> wBins w' n = wBins w n)
  /\ wHeadGo w' = Some (commitOf conf) /\ rDirty (wRepo w') = false
  /\ ((exists m, assoc master (rBranches (wRepo w)) = Some m) -> rHead (wRepo w') = OnBranch master).
Proof.
  intros parse e conf rel date w w' H F. unfold upkeepUpdate in H. fold (commitOf conf) in H.
  destruct (beq rel (commitOf conf)); [discriminate H|]. destruct (parse (conf (str "release.Date"))); [|discriminate H].
  destruct (parse date); [|discriminate H]. destruct (z <? z0)%Z; [discriminate H|].
  destruct (updateMuteFromSource cmds e (commitOf conf) w) as [[u| |] w1] eqn:E; try discriminate H. destruct u.
  apply pair_equal_spec in H as [_ <-]. apply update_spec in E as (src & S & A & B & C & D & G). rewrite (S F) in *.
  split; [exact A|]. split; [exact B|]. split; [exact C|]. split; [exact D|exact G].
Qed.

(* C179.  Nothing is changed if the running program is of the commit in the configuration or newer than its release, and
   an update that succeeded is not repeated: the new mutectrl finds itself up to date. *)
Theorem C179_untouched : forall parse e conf rel date w o w', upkeepUpdate cmds parse e conf rel date w = (o, w') ->
  (o = UpToDate <-> rel = commitOf conf)
  /\ (o = NewerBinary <-> rel <> commitOf conf /\ exists tr tb, parse (conf (str "release.Date")) = Some tr /\ parse date = Some tb /\ (tr < tb)%Z)
  /\ (o = UpToDate \/ o = NewerBinary -> w' = w).
Proof.
  intros parse e conf rel date w o w' H. unfold upkeepUpdate in H. fold (commitOf conf) in H.
  destruct (beq rel (commitOf conf)) eqn:B.
  - apply beq_spec in B. apply pair_equal_spec in H as [<- <-]. split; [split; [intros _; exact B|reflexivity]|].
    split; [split; [discriminate|intros [X _]; elim (X B)]|reflexivity].
  - apply beq_neq in B. destruct (parse (conf (str "release.Date"))) as [tr|].
    2:{ apply pair_equal_spec in H as [<- <-]. split; [split; [discriminate|intros X; elim (B X)]|].
        split; [split; [discriminate|intros (_ & tr & tb & X & _); discriminate X]|reflexivity]. }
    destruct (parse date) as [tb|].
    2:{ apply pair_equal_spec in H as [<- <-]. split; [split; [discriminate|intros X; elim (B X)]|].
        split; [split; [discriminate|intros (_ & t1 & t2 & _ & X & _); discriminate X]|reflexivity]. }
    destruct (Z.ltb_spec tr tb) as [L|L].
    + apply pair_equal_spec in H as [<- <-]. split; [split; [discriminate|intros X; elim (B X)]|].
      split; [split; [intros _; split; [exact B|]; exists tr, tb; repeat split; exact L|reflexivity]|reflexivity].
    + assert (o <> UpToDate /\ o <> NewerBinary) as [N1 N2].
      { destruct (updateMuteFromSource cmds e (commitOf conf) w) as [[u| |] w1]; apply pair_equal_spec in H as [<- _]; split; discriminate. }
      split; [split; [intros X; elim (N1 X)|intros X; elim (B X)]|].
      split; [split; [intros X; elim (N2 X)|intros (_ & t1 & t2 & X & Y & Z); assert (t1 = tr) by congruence; assert (t2 = tb) by congruence; lia]|].
      intros [X|X]; [elim (N1 X)|elim (N2 X)].
Qed.
Theorem C179_once_partial : forall parse e conf rel date w w',
  upkeepUpdate cmds parse e conf rel date w = (Updated, w') -> fullHash (commitOf conf) -> In mutectrl (cmds (commitOf conf)) ->
  exists b, wBins w' mutectrl = Some b /\ forall e2 date2, upkeepUpdate cmds parse e2 conf (bRelease b) date2 w' = (UpToDate, w').
Proof.
  intros parse e conf rel date w w' H F I. destruct (C178_partial parse e conf rel date w w' H F) as (A & _).
  exists (mkBuild (commitOf conf) (commitOf conf)). split; [exact (A _ I)|]. intros e2 date2. unfold upkeepUpdate. fold (commitOf conf). cbn [bRelease].
  rewrite beq_refl. reflexivity.
Qed.
(* every step keeps the repository clean and its branch master *)
Lemma sane_step {A} (r : res A * world) k : sane (snd r) -> (forall a, fst r = Ok a -> sane (snd r) -> sane (snd (k a (snd r)))) -> sane (snd (step r k)).
Proof. unfold step. destruct r as [[a| |] w]; cbn [fst snd]; intros S K; try exact S. apply K; [reflexivity|exact S]. Qed.
Lemma sane_repo f w : sane w -> (forall r', f (wRepo w) = Ok r' -> rDirty r' = rDirty (wRepo w)
  /\ forall x, assoc master (rBranches (wRepo w)) = Some x -> exists y, assoc master (rBranches r') = Some y) -> sane (snd (onRepo f w)).
Proof.
  intros [S1 [x S2]] K. unfold onRepo. destruct (f (wRepo w)) as [r'| |] eqn:E; try (split; [exact S1|exists x; exact S2]).
  destruct (K r' eq_refl) as [K1 K2]. split; cbn [snd setRepo wRepo]; [congruence|exact (K2 x S2)].
Qed.
Lemma sane_checkout ok n w : sane w -> sane (snd (onRepo (checkout ok n) w)).
Proof.
  intros S. apply sane_repo; [exact S|]. intros r' E. apply checkout_ok in E as (h & _ & -> & D & _). cbn [rDirty rBranches].
  split; [reflexivity|]. intros x X. exists x. exact X.
Qed.
Lemma sane_pull p w : sane w -> sane (snd (onRepo (pull p) w)).
Proof.
  intros S. apply sane_repo; [exact S|]. intros r' E. unfold pull in E. destruct p as [[c cs]|]; [|discriminate E].
  destruct (rHead (wRepo w)) as [b|]; [|discriminate E]. apply (f_equal (fun y => match y with Ok z => z | _ => r' end)) in E. subst r'.
  cbn [rDirty rBranches assoc]. split; [reflexivity|]. intros x X. destruct (beq b master); [exists c; reflexivity|exists x; exact X].
Qed.
Lemma install_repo ok d pat nr w : wRepo (snd (install cmds ok d pat nr w)) = wRepo w.
Proof.
  unfold install. destruct (headCommit (wRepo w)); [|reflexivity]. destruct nr, (wHeadGo w), ok; reflexivity.
Qed.
Lemma generate_repo ok w : wRepo (snd (generate ok w)) = wRepo w.
Proof. unfold generate. destruct (headCommit (wRepo w)); [|reflexivity]. destruct ok; reflexivity. Qed.
Lemma sane_update e c w : sane w -> sane (snd (updateMuteFromSource cmds e c w)).
Proof.
  intros S. unfold updateMuteFromSource. destruct (negb (eLook e)); [exact S|].
  apply sane_step; [exact S|]. intros a _ _. cbn [snd].
  apply sane_step; [apply sane_checkout, S|]. intros a1 _ S1.
  apply sane_step; [apply sane_pull, S1|]. intros a2 _ S2.
  apply sane_step; [exact S2|]. intros hd _ S3. cbn [snd] in S3 |- *.
  apply sane_step; [destruct (negb (beq hd c)); [apply sane_checkout, S3|exact S3]|]. intros a4 _ S4.
  apply sane_step; [unfold sane; rewrite install_repo; exact S4|]. intros a5 _ S5.
  apply sane_step; [unfold sane; rewrite generate_repo; exact S5|]. intros a6 _ S6.
  apply sane_step; [unfold sane; rewrite install_repo; exact S6|]. intros a7 _ S7.
  destruct (negb (beq hd c)); [apply sane_checkout, S7|exact S7].
Qed.
Lemma checkout_works n r h : resolve n r = Some h -> rDirty r = false -> checkout true n r = Ok (mkRepo (rBranches r) (rTags r) (rCommits r) h (rDirty r)).
Proof. intros R D. unfold checkout. rewrite R, D. reflexivity. Qed.
Lemma install_works d pat nr w c : headCommit (wRepo w) = Some c -> (nr = true -> wHeadGo w <> None) ->
  exists w', install cmds true d pat nr w = (Ok tt, w') /\ wRepo w' = wRepo w /\ wHeadGo w' = wHeadGo w.
Proof.
  intros H N. unfold install. rewrite H. destruct nr.
  - destruct (wHeadGo w) as [g|] eqn:G; [|elim (N eq_refl eq_refl)]. eexists. split; [reflexivity|]. split; [reflexivity|]. cbn [wHeadGo]. reflexivity.
  - eexists. split; [reflexivity|]. split; reflexivity.
Qed.
Lemma onRepo_works f w r : f (wRepo w) = Ok r -> onRepo f w = (Ok tt, setRepo r w).
Proof. intros E. unfold onRepo. rewrite E. reflexivity. Qed.
Lemma step_go {A} (a : A) w k : step (Ok a, w) k = k a w.
Proof. reflexivity. Qed.
Lemma update_works e c w : sane w -> fullHash c -> works c w e -> exists w', updateMuteFromSource cmds e c w = (Ok tt, w').
Proof.
  intros [D [m0 M]] F (W1 & W2 & W3 & W4 & W5 & W6 & W7 & W8 & W9 & m & cs & WP & WI).
  unfold updateMuteFromSource. rewrite W1, W2, W3, W4, W5, W6, W7, W8, W9, WP. cbn [negb].
  unfold step at 1. unfold status. rewrite D. cbn [negb fst snd].
  assert (forall r, (exists y, assoc master (rBranches r) = Some y) -> resolve master r = Some (OnBranch master)) as RM.
  { intros r [y Y]. unfold resolve. change (isHash master) with false. cbv iota. rewrite Y. reflexivity. }
  rewrite (onRepo_works _ _ _ (checkout_works master _ _ (RM _ (ex_intro _ m0 M)) D)), step_go.
  rewrite (onRepo_works (pull (Some (m, cs))) (setRepo (mkRepo (rBranches (wRepo w)) (rTags (wRepo w)) (rCommits (wRepo w)) (OnBranch master) (rDirty (wRepo w))) w) (mkRepo ((master, m) :: rBranches (wRepo w)) (rTags (wRepo w)) (m :: cs ++ rCommits (wRepo w)) (OnBranch master) (rDirty (wRepo w))) eq_refl), step_go.
  set (r3 := mkRepo ((master, m) :: rBranches (wRepo w)) (rTags (wRepo w)) (m :: cs ++ rCommits (wRepo w)) (OnBranch master) (rDirty (wRepo w))).
  set (w3 := setRepo r3 (setRepo (mkRepo (rBranches (wRepo w)) (rTags (wRepo w)) (rCommits (wRepo w)) (OnBranch master) (rDirty (wRepo w))) w)).
  assert (assoc master (rBranches r3) = Some m) as A3 by (unfold r3; cbn [rBranches assoc]; rewrite beq_refl; reflexivity).
  change (wRepo w3) with r3. assert (getHead true r3 = Ok m) as ->.
  { assert (headCommit r3 = Some m) as HC by exact A3. unfold getHead. rewrite HC. reflexivity. }
  rewrite step_go. cbv beta zeta.
  assert (exists w4, (if negb (beq m c) then onRepo (checkout true c) w3 else (Ok tt, w3)) = (Ok tt, w4) /\ headCommit (wRepo w4) = Some c
          /\ rDirty (wRepo w4) = false /\ assoc master (rBranches (wRepo w4)) = Some m) as (w4 & -> & H4 & D4 & M4).
  { destruct (beq m c) eqn:B; cbn [negb].
    - apply beq_spec in B as ->. exists w3. split; [reflexivity|]. split; [exact A3|]. split; [exact D|exact A3].
    - unfold onRepo. change (wRepo w3) with r3. rewrite (checkout_works c r3 (Detached c)).
      + eexists. split; [reflexivity|]. cbn [setRepo wRepo]. split; [reflexivity|]. split; [exact D|exact A3].
      + unfold resolve. rewrite (proj2 (hash_iff c) F). rewrite (proj2 (inList_In _ _)); [reflexivity|]. unfold r3. cbn [rCommits].
        destruct WI as [->|[I|I]]; [left; reflexivity|right; apply in_or_app; left; exact I|right; apply in_or_app; right; exact I].
      + exact D. }
  rewrite step_go.
  destruct (install_works (eGenDone e) onlyGenerate false w4 c H4) as (w5 & E5 & R5 & _); [discriminate|]. rewrite E5, step_go.
  unfold generate. rewrite R5, H4, step_go.
  destruct (install_works (eDone e) (fun names => names) true (mkWorld (wRepo w4) (Some c) (wBins w5)) c H4) as (w6 & E6 & R6 & _); [discriminate|].
  rewrite E6, step_go. destruct (negb (beq m c)); [|exists w6; reflexivity].
  unfold onRepo. rewrite R6. cbn [wRepo]. rewrite (checkout_works master (wRepo w4) (OnBranch master)); [|apply RM; exists m; exact M4|exact D4].
  eexists. reflexivity.
Qed.

(* C180.  Whatever happened in a run, a later run in which the programs work installs the commit, as long as mutectrl itself was not replaced. *)
Theorem C180_partial : forall parse e conf date w o w1 b e2, sane w -> fullHash (commitOf conf) ->
  wBins w mutectrl = Some b -> due parse conf (bRelease b) date ->
  upkeepUpdate cmds parse e conf (bRelease b) date w = (o, w1) -> wBins w1 mutectrl = Some b -> works (commitOf conf) w1 e2 ->
  exists w2, upkeepUpdate cmds parse e2 conf (bRelease b) date w1 = (Updated, w2)
    /\ (forall n, In n (cmds (commitOf conf)) -> wBins w2 n = Some (mkBuild (commitOf conf) (commitOf conf)))
    /\ rHead (wRepo w2) = OnBranch master.
Proof.
  intros parse e conf date w o w1 b e2 S F _ (NE & tr & tb & T1 & T2 & L) H _ W.
  assert (forall e w, upkeepUpdate cmds parse e conf (bRelease b) date w = match updateMuteFromSource cmds e (commitOf conf) w with
     | (Ok _, w') => (Updated, w') | (Err s, w') => (Failed s, w') | (Panic, w') => (Failed "panic"%string, w') end) as U.
  { intros e0 w0. unfold upkeepUpdate. fold (commitOf conf). rewrite (proj2 (beq_neq _ _) NE), T1, T2. rewrite (proj2 (Z.ltb_ge tr tb) L). reflexivity. }
  assert (sane w1) as S1.
  { rewrite U in H. pose proof (sane_update e (commitOf conf) w S) as X. destruct (updateMuteFromSource cmds e (commitOf conf) w) as [[u| |] wx];
    apply pair_equal_spec in H as [_ <-]; exact X. }
  destruct (update_works e2 (commitOf conf) w1 S1 F W) as (w2 & E2). exists w2.
  assert (upkeepUpdate cmds parse e2 conf (bRelease b) date w1 = (Updated, w2)) as E by (rewrite U, E2; reflexivity).
  split; [exact E|]. destruct (C178_partial _ _ _ _ _ _ _ E F) as (A & _ & _ & _ & R). split; [exact A|]. apply R. exact (proj2 S1).
Qed.
(* A run in which the last installation and the last checkout work fails without replacing any program but mutegenerate. *)
Lemma step_not_ok {A} (r : res A * world) k x w' : step r k = (x, w') -> (w' = snd r /\ (forall a, fst r <> Ok a)) \/ exists a, fst r = Ok a /\ k a (snd r) = (x, w').
Proof.
  unfold step. destruct r as [[a| |] w]; cbn [fst snd]; intros H; [right; exists a; split; [reflexivity|exact H]| |]; left; apply pair_equal_spec in H as [_ <-]; split; congruence.
Qed.
Lemma onRepo_bins f w : wBins (snd (onRepo f w)) = wBins w.
Proof. unfold onRepo. destruct (f (wRepo w)); reflexivity. Qed.
Theorem C180_untouched : forall parse e conf rel date w s w1, sane w ->
  upkeepUpdate cmds parse e conf rel date w = (Failed s, w1) -> eInst e = true -> eBack e = true ->
  forall n, n <> mutegenerate -> wBins w1 n = wBins w n.
Proof.
  intros parse e conf rel date w s w1 SW H IO BO n N. unfold upkeepUpdate in H. fold (commitOf conf) in H. set (c := commitOf conf) in *.
  destruct (beq rel c); [discriminate H|]. destruct (parse (conf (str "release.Date"))); [|apply pair_equal_spec in H as [_ <-]; reflexivity].
  destruct (parse date); [|apply pair_equal_spec in H as [_ <-]; reflexivity]. destruct (z <? z0)%Z; [discriminate H|].
  destruct (updateMuteFromSource cmds e c w) as [x wx] eqn:E. assert (x <> Ok tt /\ wx = w1) as [NX ->].
  { destruct x as [u| |]; apply pair_equal_spec in H as [H1 H2]; try discriminate H1; split; congruence. }
  clear H. unfold updateMuteFromSource in E. destruct (negb (eLook e)); [apply pair_equal_spec in E as [_ <-]; reflexivity|].
  apply step_not_ok in E as [[-> _]|(a1 & _ & E)]; [reflexivity|]. cbn [snd] in E.
  apply step_not_ok in E as [[-> _]|(a2 & _ & E)]; [rewrite onRepo_bins; reflexivity|].
  assert (sane (snd (onRepo (checkout (eMaster e) master) w))) as S2 by (apply sane_checkout; exact SW).
  rewrite <- (f_equal (fun f => f n) (onRepo_bins (checkout (eMaster e) master) w)). set (w2 := snd (onRepo _ w)) in *.
  apply step_not_ok in E as [[-> _]|(a3 & _ & E)]; [rewrite onRepo_bins; reflexivity|].
  assert (sane (snd (onRepo (pull (ePull e)) w2))) as S3 by (apply sane_pull; exact S2).
  rewrite <- (f_equal (fun f => f n) (onRepo_bins (pull (ePull e)) w2)). set (w3 := snd (onRepo _ w2)) in *.
  apply step_not_ok in E as [[-> _]|(hd & _ & E)]; [reflexivity|]. cbn [snd] in E.
  assert (forall r : res unit * world, r = (if negb (beq hd c) then onRepo (checkout (eCommit e) c) w3 else (Ok tt, w3)) -> wBins (snd r) = wBins w3 /\ sane (snd r)) as B4.
  { intros r ->. destruct (negb (beq hd c)); [|split; [reflexivity|exact S3]]. split; [apply onRepo_bins|apply sane_checkout; exact S3]. }
  specialize (B4 _ eq_refl) as [B4 S4]. rewrite <- B4.
  apply step_not_ok in E as [[-> _]|(a4 & _ & E)]; [reflexivity|].
  set (w4 := snd (if negb (beq hd c) then onRepo (checkout (eCommit e) c) w3 else (Ok tt, w3))) in *.
  assert (wBins (snd (install cmds (eGen e) (eGenDone e) onlyGenerate false w4)) n = wBins w4 n) as B5.
  { unfold install. destruct (headCommit (wRepo w4)) as [h|]; [|reflexivity].
    assert (forall l, (forall y, In y l -> y = mutegenerate) -> inList n l = false) as NI.
    { intros l Y. destruct (inList n l) eqn:I; [|reflexivity]. apply inList_In in I. elim (N (Y n I)). }
    assert (forall y, In y (onlyGenerate (cmds h)) -> y = mutegenerate) as OG.
    { intros y Y. unfold onlyGenerate in Y. apply filter_In in Y as [_ Y]. apply beq_spec in Y. exact Y. }
    destruct (eGen e); cbn [snd wBins]; unfold putBins; rewrite NI; try reflexivity; [exact OG|].
    intros y Y. apply filter_In in Y as [Y _]. exact (OG y Y). }
  rewrite <- B5. clear B5.
  apply step_not_ok in E as [[-> _]|(a5 & _ & E)]; [reflexivity|].
  assert (sane (snd (install cmds (eGen e) (eGenDone e) onlyGenerate false w4))) as S5 by (unfold sane; rewrite install_repo; exact S4).
  set (w5 := snd (install cmds (eGen e) (eGenDone e) onlyGenerate false w4)) in *.
  assert (forall a, fst (generate (eGenerate e) w5) = Ok a -> exists h, headCommit (wRepo w5) = Some h /\ wHeadGo (snd (generate (eGenerate e) w5)) = Some h) as G6.
  { intros a. unfold generate. destruct (headCommit (wRepo w5)) as [h|]; [|discriminate]. destruct (eGenerate e); [|discriminate]. intros _. exists h. split; reflexivity. }
  assert (wBins (snd (generate (eGenerate e) w5)) = wBins w5) as B6.
  { unfold generate. destruct (headCommit (wRepo w5)); [|reflexivity]. destruct (eGenerate e); reflexivity. }
  rewrite <- B6. apply step_not_ok in E as [[-> _]|(a6 & X6 & E)]; [reflexivity|]. specialize (G6 _ X6) as (h & G1 & G2).
  assert (wRepo (snd (generate (eGenerate e) w5)) = wRepo w5) as R6 by apply generate_repo.
  set (w6 := snd (generate (eGenerate e) w5)) in *. rewrite IO in E.
  destruct (install_works (eDone e) (fun names => names) true w6 h) as (w7 & E7 & R7 & _); [rewrite R6; exact G1|rewrite G2; discriminate|].
  rewrite E7 in E. unfold step in E. cbn [fst snd] in E. exfalso. destruct (negb (beq hd c)); [|apply pair_equal_spec in E as [E _]; congruence].
  unfold onRepo in E. rewrite BO, R7, R6 in E. destruct S5 as [D5 [y Y5]]. rewrite (checkout_works master (wRepo w5) (OnBranch master)) in E; [|unfold resolve; change (isHash master) with false; cbv iota; rewrite Y5; reflexivity|exact D5].
  apply pair_equal_spec in E as [E _]. congruence.
Qed.
End Props.

(* ---- cases and refutations ---- *)
Definition cOld : bytes := repeat 97 40.
Definition cNew : bytes := repeat 98 40.
Definition exCmds (_ : bytes) : list bytes := [str "mutecrypt"; mutectrl; mutegenerate].
Definition exParse (d : bytes) : option Z := match d with [x] => Some (Z.of_N x) | _ => None end.
Definition exConf (c : bytes) (k : bytes) : bytes := if beq k (str "release.Commit") then c else if beq k (str "release.Date") then [2] else [].
Definition exBins (n : bytes) : option build := if inList n (exCmds []) then Some (mkBuild cOld cOld) else None.
Definition exWorld : world := mkWorld (mkRepo [(master, cOld)] [(str "v1", cNew)] [cOld] (OnBranch master) false) (Some cOld) exBins.
Definition good : env := mkEnv true true true (Some (cNew, [])) true true true (fun _ => false) true true (fun _ => false) true.
(* the commit is behind the head of master *)
Definition good2 : env := mkEnv true true true (Some (repeat 99 40, [cNew])) true true true (fun _ => false) true true (fun _ => false) true.
(* the last go install replaces mutectrl and then fails *)
Definition half : env := mkEnv true true true (Some (cNew, [])) true true true (fun _ => false) true false (beq mutectrl) true.
Definition run (e : env) (c rel : bytes) (w : world) : outcome * world := upkeepUpdate exCmds exParse e (exConf c) rel [1] w.
Example C178_case : fst (run good2 cNew cOld exWorld) = Updated /\ fullHash (commitOf (exConf cNew))
  /\ wBins (snd (run good2 cNew cOld exWorld)) mutectrl = Some (mkBuild cNew cNew) /\ rHead (wRepo (snd (run good2 cNew cOld exWorld))) = OnBranch master.
Proof. split; [reflexivity|]. split; [apply hash_iff; reflexivity|]. split; reflexivity. Qed.
Example C180_case : sane exWorld /\ due exParse (exConf cNew) cOld [1] /\ works cNew exWorld good /\ exBins mutectrl = Some (mkBuild cOld cOld).
Proof.
  split; [split; [reflexivity|exists cOld; reflexivity]|]. split; [split; [discriminate|exists 2%Z, 1%Z; split; [reflexivity|]; split; [reflexivity|lia]]|].
  split; [|reflexivity]. repeat (split; [reflexivity|]). exists cNew, []. split; [reflexivity|]. left. reflexivity.
Qed.
(* A release named by a tag: the program is installed, but finds itself out of date and updates again on each run. *)
Theorem C178_refuted : exists cmds parse e conf rel date w w' b, upkeepUpdate cmds parse e conf rel date w = (Updated, w')
  /\ In mutectrl (cmds (commitOf conf)) /\ wBins w' mutectrl = Some b /\ bRelease b <> commitOf conf /\ bSource b <> commitOf conf.
Proof.
  exists exCmds, exParse, good2, (exConf (str "v1")), cOld, [1], exWorld, (snd (run good2 (str "v1") cOld exWorld)), (mkBuild cNew cNew).
  split; [vm_compute; reflexivity|]. split; [right; left; reflexivity|]. split; [vm_compute; reflexivity|]. split; vm_compute; discriminate.
Qed.
Theorem C179_once_refuted : exists cmds parse e conf rel date w w' b, upkeepUpdate cmds parse e conf rel date w = (Updated, w')
  /\ wBins w' mutectrl = Some b /\ fst (upkeepUpdate cmds parse e conf (bRelease b) date w') = Updated.
Proof.
  exists exCmds, exParse, good2, (exConf (str "v1")), cOld, [1], exWorld, (snd (run good2 (str "v1") cOld exWorld)), (mkBuild cNew cNew).
  split; [vm_compute; reflexivity|]. split; vm_compute; reflexivity.
Qed.
(* The last go install replaces mutectrl but not mutecrypt: from then on each run says "up to date" and mutecrypt stays old. *)
Theorem C180_refuted : exists cmds parse e conf date w w1 b s, sane w /\ fullHash (commitOf conf)
  /\ upkeepUpdate cmds parse e conf cOld date w = (Failed s, w1) /\ wBins w1 mutectrl = Some b
  /\ In (str "mutecrypt") (cmds (commitOf conf)) /\ wBins w1 (str "mutecrypt") = Some (mkBuild cOld cOld) /\ cOld <> commitOf conf
  /\ forall e2 date2, upkeepUpdate cmds parse e2 conf (bRelease b) date2 w1 = (UpToDate, w1).
Proof.
  exists exCmds, exParse, half, (exConf cNew), [1], exWorld, (snd (run half cNew cOld exWorld)), (mkBuild cNew cNew), "exit status 1"%string.
  split; [split; [reflexivity|exists cOld; reflexivity]|]. split; [apply hash_iff; reflexivity|]. split; [vm_compute; reflexivity|]. split; [vm_compute; reflexivity|].
  split; [left; reflexivity|]. split; [vm_compute; reflexivity|]. split; [vm_compute; discriminate|]. intros e2 date2. reflexivity.
Qed.

Print Assumptions C178_partial.
Print Assumptions C178_refuted.
Print Assumptions C179_untouched.
Print Assumptions C179_once_partial.
Print Assumptions C179_once_refuted.
Print Assumptions C180_partial.
Print Assumptions C180_untouched.
Print Assumptions C180_refuted.

