(* Configuration: C50, C51, C52, C53, C72, C88, C89. *)
From Verif Require Import Base Base64Model Base64Proofs CryptoModel ConfigModel.
From Coq Require Import Permutation Sorting.Sorted.
Local Open Scope N_scope.

(* ---------------- sorting ---------------- *)
Lemma blt_irrefl a : blt a a = false.
Proof. induction a as [|x a IH]; [reflexivity|]. cbn [blt]. rewrite N.ltb_irrefl. exact IH. Qed.
Lemma blt_trans a : forall b c, blt a b = true -> blt b c = true -> blt a c = true.
Proof.
  induction a as [|x a IH]; intros [|y b] [|z c]; cbn [blt]; try discriminate; auto. intros A B. destruct (N.ltb_spec x y), (N.ltb_spec y z), (N.ltb_spec x z); try reflexivity; try lia.
  - destruct (N.ltb_spec z y); [discriminate|]. lia.
  - destruct (N.ltb_spec y x); [discriminate|]. lia.
  - destruct (N.ltb_spec y x); [discriminate|]. destruct (N.ltb_spec z y); [discriminate|]. destruct (N.ltb_spec z x); [lia|]. eapply IH; eassumption.
Qed.
Lemma blt_total a : forall b, blt a b = false -> blt b a = false -> a = b.
Proof.
  induction a as [|x a IH]; intros [|y b]; cbn [blt]; try discriminate; auto. intros A B. destruct (N.ltb_spec x y); [discriminate|]. destruct (N.ltb_spec y x); [discriminate|]. assert (x = y) by lia. subst y. f_equal. apply IH; assumption.
Qed.
Definition keyLt (e f : entry) : Prop := blt (fst e) (fst f) = true.
Lemma insertE_perm e l : Permutation (insertE e l) (e :: l).
Proof. induction l as [|f l IH]; [reflexivity|]. cbn [insertE]. destruct (blt _ _); [|reflexivity]. rewrite IH. apply perm_swap. Qed.
Lemma sortMap_perm m : Permutation (sortMap m) m.
Proof. induction m as [|e m IH]; [reflexivity|]. cbn [sortMap fold_right]. fold (sortMap m). rewrite insertE_perm. constructor. exact IH. Qed.
Lemma insertE_sorted e l : StronglySorted keyLt l -> ~ In (fst e) (map fst l) -> StronglySorted keyLt (insertE e l).
Proof.
  induction l as [|f l IH]; intros S N0; [repeat constructor|]. cbn [insertE]. inversion_clear S as [|? ? S1 S2]. destruct (blt (fst f) (fst e)) eqn:B.
  - constructor; [apply IH; [exact S1|intros Q; apply N0; right; exact Q]|]. apply Forall_forall. intros g G. apply (Permutation_in _ (insertE_perm e l)) in G as [<-|G]; [exact B|]. rewrite Forall_forall in S2. apply S2, G.
  - constructor; [constructor; assumption|]. assert (K : keyLt e f). { unfold keyLt. destruct (blt (fst e) (fst f)) eqn:B2; [reflexivity|]. elim N0. left. apply blt_total; assumption. }
    constructor; [exact K|]. rewrite Forall_forall in *. intros g G. unfold keyLt in *. eapply blt_trans; [exact K|]. apply (S2 g G).
Qed.
Lemma sortMap_sorted m : NoDup (map fst m) -> StronglySorted keyLt (sortMap m).
Proof.
  induction m as [|e m IH]; intros N0; [constructor|]. cbn [map] in N0. inversion_clear N0. cbn [sortMap fold_right]. apply insertE_sorted; [apply IH; assumption|]. intros Q. apply H. eapply Permutation_in; [|exact Q]. apply Permutation_map, sortMap_perm.
Qed.
Lemma sorted_unique l1 : forall l2, StronglySorted keyLt l1 -> StronglySorted keyLt l2 -> Permutation l1 l2 -> l1 = l2.
Proof.
  induction l1 as [|e l1 IH]; intros l2 S1 S2 P; [apply Permutation_nil in P; congruence|]. destruct l2 as [|f l2]; [symmetry in P; apply Permutation_nil in P; discriminate|].
  inversion_clear S1 as [|? ? A1 A2]. inversion_clear S2 as [|? ? B1 B2]. rewrite Forall_forall in A2, B2.
  assert (e = f).
  { assert (I1 : In e (f :: l2)) by (eapply Permutation_in; [exact P|left; reflexivity]). assert (I2 : In f (e :: l1)) by (eapply Permutation_in; [symmetry; exact P|left; reflexivity]).
    destruct I1 as [I1|I1]; [congruence|]. destruct I2 as [I2|I2]; [congruence|]. specialize (A2 _ I2). specialize (B2 _ I1). unfold keyLt in *. pose proof (blt_trans _ _ _ A2 B2) as Q. rewrite blt_irrefl in Q. discriminate. }
  subst f. f_equal. apply IH; [assumption|assumption|]. eapply Permutation_cons_inv. exact P.
Qed.
Lemma sortMap_same m1 m2 : NoDup (map fst m1) -> Permutation m1 m2 -> sortMap m1 = sortMap m2.
Proof.
  intros N1 P. apply sorted_unique; [apply sortMap_sorted, N1|apply sortMap_sorted; eapply Permutation_NoDup; [apply Permutation_map, P|exact N1]|]. rewrite !sortMap_perm. exact P.
Qed.

(* ---------------- C50 ---------------- *)
Definition smallE (e : entry) : Prop := lenN (fst e) < 2 ^ 64 /\ lenN (snd e) < 2 ^ 64.
Lemma app_inj_len {A} (a1 a2 b1 b2 : list A) : lenN a1 = lenN a2 -> a1 ++ b1 = a2 ++ b2 -> a1 = a2 /\ b1 = b2.
Proof.
  revert a2. induction a1 as [|x a1 IH]; intros [|y a2] L E; rewrite ?lenN_cons, ?lenN_nil in L; try lia; [split; [reflexivity|exact E]|]. cbn [app] in E. injection E as <- E. apply IH in E as [-> ->]; [auto|lia].
Qed.
Lemma lenByte_inj d1 d2 r1 r2 : lenN d1 < 2 ^ 64 -> lenN d2 < 2 ^ 64 -> lenByte d1 ++ r1 = lenByte d2 ++ r2 -> d1 = d2 /\ r1 = r2.
Proof.
  intros L1 L2 E. unfold lenByte in E. rewrite <- !app_assoc in E. apply app_inj_len in E as [E1 E2]; [|rewrite !lenN_be; reflexivity]. apply app_inj_len in E2; [exact E2|].
  pose proof (be_dec_be 8 (lenN d1)) as Q1. pose proof (be_dec_be 8 (lenN d2)) as Q2. rewrite E1 in Q1. change (256 ^ N.of_nat 8) with (2 ^ 64) in *. rewrite N.mod_small in Q1, Q2 by assumption. congruence.
Qed.
Lemma body_inj s1 : forall s2, Forall smallE s1 -> Forall smallE s2 -> concat (map (fun e => lenByte (fst e) ++ lenByte (snd e)) s1) = concat (map (fun e => lenByte (fst e) ++ lenByte (snd e)) s2) -> s1 = s2.
Proof.
  induction s1 as [|[k v] s1 IH]; intros [|[k' v'] s2] F1 F2 E; [reflexivity| | |]; cbn [map concat fst snd] in E.
  - assert (Q : lenN (@nil N) = lenN ((lenByte k' ++ lenByte v') ++ concat (map (fun e => lenByte (fst e) ++ lenByte (snd e)) s2))) by (rewrite <- E; reflexivity). unfold lenByte in Q. rewrite !lenN_app, !lenN_be, lenN_nil in Q. lia.
  - assert (Q : lenN (@nil N) = lenN ((lenByte k ++ lenByte v) ++ concat (map (fun e => lenByte (fst e) ++ lenByte (snd e)) s1))) by (rewrite E; reflexivity). unfold lenByte in Q. rewrite !lenN_app, !lenN_be, lenN_nil in Q. lia.
  - inversion_clear F1 as [|? ? [A1 A2] F1']. inversion_clear F2 as [|? ? [B1 B2] F2']. cbn [fst snd] in *. rewrite <- !app_assoc in E. apply lenByte_inj in E as [-> E]; [|assumption|assumption]. apply lenByte_inj in E as [-> E]; [|assumption|assumption]. f_equal. apply IH; assumption.
Qed.
Lemma imageBytes_inj s1 s2 : Forall smallE s1 -> Forall smallE s2 -> imageBytes s1 = imageBytes s2 -> s1 = s2.
Proof.
  intros F1 F2 E. unfold imageBytes in E. cbv zeta in E. apply app_inj_len in E as [E _]; [apply body_inj; assumption|].
  apply (f_equal lenN) in E. rewrite !lenN_app, !lenN_be in E. lia.
Qed.
(* Same signed message: same date, same entries, unless SHA-512 collides on the two images. *)
Theorem C50_covers : forall C m1 m2 d1 d2, NoDup (map fst m1) -> NoDup (map fst m2) -> Forall smallE m1 -> Forall smallE m2 -> d1 < 2 ^ 64 -> d2 < 2 ^ 64 ->
  (sha512 C (imageBytes (sortMap m1)) = sha512 C (imageBytes (sortMap m2)) -> imageBytes (sortMap m1) = imageBytes (sortMap m2)) ->
  signedImage C d1 (sortMap m1) = signedImage C d2 (sortMap m2) -> d1 = d2 /\ Permutation m1 m2.
Proof.
  intros C m1 m2 d1 d2 N1 N2 F1 F2 L1 L2 CF E. unfold signedImage, image in E. apply app_inj_len in E as [E1 E2]; [|rewrite !sha512_len; reflexivity]. split.
  - pose proof (be_dec_be 8 d1) as Q1. pose proof (be_dec_be 8 d2) as Q2. rewrite E2 in Q1. change (256 ^ N.of_nat 8) with (2 ^ 64) in *. rewrite N.mod_small in Q1, Q2 by assumption. congruence.
  - apply CF, imageBytes_inj in E1; [rewrite <- (sortMap_perm m1), E1; apply sortMap_perm| |]; (eapply Permutation_Forall; [symmetry; apply sortMap_perm|assumption]).
Qed.
Theorem C50_order : forall C m1 m2 d, NoDup (map fst m1) -> Permutation m1 m2 -> signedImage C d (sortMap m1) = signedImage C d (sortMap m2).
Proof. intros C m1 m2 d N1 P. rewrite (sortMap_same m1 m2 N1 P). reflexivity. Qed.
Definition exMap : list entry := [(str "b", str "2"); (str "a", str "1")].
Example C50_ex : NoDup (map fst exMap) /\ sortMap exMap = [(str "a", str "1"); (str "b", str "2")] /\ Forall smallE exMap /\
  (sha512 toy (imageBytes (sortMap exMap)) = sha512 toy (imageBytes (sortMap [(str "ba", str "2")])) -> imageBytes (sortMap exMap) = imageBytes (sortMap [(str "ba", str "2")])).
Proof.
  split; [constructor; [cbn; intros [Q|[]]; discriminate|constructor; [intros []|constructor]]|]. split; [reflexivity|]. split; [repeat (constructor; [split; reflexivity|]); constructor|]. intros Q. exfalso. vm_compute in Q. discriminate.
Qed.
(* A generated certificate is accepted by the holder of the public key within four hours, whatever the order of the map. *)
Theorem C50_accepted : forall C m m' priv now0 now last, NoDup (map fst m) -> Permutation m m' -> (0 <= now0 < 2 ^ 63)%Z -> (0 <= now < 2 ^ 63)%Z -> (Z.abs (now - now0) <= 14400)%Z -> last <= Z.to_N now0 ->
  let cert := generate C now0 priv m in certify C now last (edpub C priv) (Some (mkSM m' (sSig cert) (sDate cert))) = Ok (mkSM m' (sSig cert) (sDate cert)).
Proof.
  intros C m m' priv now0 now last N1 P R0 R A L cert. unfold certify, cert, generate. cbn [sDate sSig sConfig].
  assert (U0 : u64 now0 = Z.to_N now0) by (unfold u64; rewrite Z.mod_small by lia; reflexivity). assert (U : u64 now = Z.to_N now) by (unfold u64; rewrite Z.mod_small by lia; reflexivity). rewrite U0, U.
  replace (Z.to_N now0 <? last) with false by (symmetry; apply N.ltb_ge; lia). rewrite andb_false_r.
  replace (maxAge <? diff (Z.to_N now) (Z.to_N now0)) with false by (symmetry; apply N.ltb_ge; unfold diff, maxAge; destruct (N.ltb_spec (Z.to_N now0) (Z.to_N now)); lia).
  unfold verifyMap, signMap. assert (AR : arr32 (edpub C priv) = edpub C priv) by (unfold arr32; apply takeN_app, edpub_len). rewrite AR, (sortMap_same m m' N1 P), edverify_sign. reflexivity.
Qed.
Example C50_accepted_ex : is_ok (certify toy 1000100 900000 (edpub toy (str "key")) (Some (generate toy 1000000 (str "key") exMap))) = true.
Proof. vm_compute. reflexivity. Qed.

(* ---------------- C51 ---------------- *)
(* a sequence of updates, each with what the servers do and the time; what was accepted: time, sign date, map, key *)
Fixpoint updates (C : Crypto) (L : certLib) (us : list (world * Z)) (c : config) : list (Z * N * list entry * bytes) * config :=
  match us with
  | [] => ([], c)
  | (o, now) :: us' =>
    let (r, c') := update C L o now c in
    let (l, c2) := updates C L us' c' in
    ((if is_ok r then [(now, fLast c', fMap c', fPub c')] else []) ++ l, c2)
  end.
Lemma tryFrom_ok {A} (f : bytes -> res A) ss : forall cur n a, tryFrom f ss cur = (n, Some (Ok a)) -> exists s, In s ss /\ f s = Ok a.
Proof.
  induction ss as [|s ss IH]; intros cur n a; [discriminate|]. cbn [tryFrom]. destruct (f s) as [b|e|] eqn:F.
  - intros E. exists s. split; [left; reflexivity|]. congruence.
  - destruct (tryFrom f ss (S cur)) as [c r] eqn:T. destruct r as [r|]; [|discriminate]. intros E. assert (r = Ok a) as -> by congruence. destruct (IH _ _ _ T) as [s' [I E']]. exists s'. split; [right; exact I|exact E'].
  - discriminate.
Qed.
Definition startDate (now : Z) (c : config) : N := if fLast c =? 0 then u64 (now - skew) else fLast c.
(* one update: on success a certified map is installed; otherwise map and key stay, and the date unless it was 0 *)
Lemma update_step C L o now c r c' : update C L o now c = (r, c') ->
  fPub c' = fPub c /\ fURL c' = fURL c /\
  if is_ok r then exists sm, certify C now (startDate now c) (fPub c) (Some sm) = Ok sm /\ fMap c' = sConfig sm /\ fLast c' = sDate sm
  else fMap c' = fMap c /\ (fLast c' = fLast c \/ fLast c = 0).
Proof.
  intros E. unfold update in E. destruct (order _ _) as [|s0 ss] eqn:SS; [injection E as <- <-; cbn [is_ok]; auto|]. rewrite <- SS in E. clear SS s0 ss. set (servers := order _ _) in E.
  set (c0 := if fLast c =? 0 then setLast c (u64 (now - skew)) else c) in E.
  assert (C0 : fPub c0 = fPub c /\ fURL c0 = fURL c /\ fMap c0 = fMap c /\ fLast c0 = startDate now c) by (unfold c0, startDate; destruct (fLast c =? 0); repeat split). destruct C0 as (P0 & U0 & M0 & L0).
  assert (LK : startDate now c = fLast c \/ fLast c = 0) by (unfold startDate; destruct (N.eqb_spec (fLast c) 0); auto).
  destruct (tryFrom _ (skipn (fCur c0) servers) (fCur c0)) as [cur res] eqn:T. destruct res as [[cert|e|]|].
  2-4: injection E as <- <-; cbn [setCur fPub fURL fMap fLast is_ok]; rewrite L0, M0; auto.
  apply tryFrom_ok in T as (s & _ & CE). unfold getConfig in CE. rewrite P0, L0 in CE.
  assert (CE' : certify C now (startDate now c) (fPub c) (Some cert) = Ok cert).
  { destruct (oConfig o s) as [sm|]; [|discriminate]. assert (sm = cert) as <-; [|exact CE]. unfold certify in CE. destruct (_ && _); [discriminate|]. destruct (maxAge <? _); [discriminate|]. destruct (negb _); [discriminate|]. congruence. }
  clear CE.
  assert (ACC : forall d, fPub d = fPub c -> fURL d = fURL c -> fPub (accept d cert) = fPub c /\ fURL (accept d cert) = fURL c /\ exists sm, certify C now (startDate now c) (fPub c) (Some sm) = Ok sm /\ fMap (accept d cert) = sConfig sm /\ fLast (accept d cert) = sDate sm).
  { intros d A B. cbn [accept fPub fURL fMap fLast]. split; [exact A|]. split; [exact B|]. exists cert. auto. }
  assert (REJ : forall d, fPub d = fPub c0 -> fURL d = fURL c0 -> fMap d = fMap c0 -> fLast d = fLast c0 -> fPub d = fPub c /\ fURL d = fURL c /\ fMap d = fMap c /\ (fLast d = fLast c \/ fLast c = 0)).
  { intros d -> -> -> ->. rewrite L0. auto. }
  destruct (lookup _ _) as [hh|]; [|injection E as <- <-; apply ACC; [exact P0|exact U0]]. destruct (hexdec hh) as [hb|]; [|injection E as <- <-; apply REJ; reflexivity].
  destruct (match fCA _ with Some ca => caHash C L ca | None => Ok [] end) as [my|e|]; [|injection E as <- <-; apply REJ; reflexivity|injection E as <- <-; apply REJ; reflexivity].
  destruct (beq my hb); [injection E as <- <-; apply ACC; [exact P0|exact U0]|]. destruct (tryFrom _ _ 0%nat) as [n [[ca|e|]|]]; injection E as <- <-.
  - apply ACC; [exact P0|exact U0].
  - apply REJ; reflexivity.
  - destruct n; apply REJ; reflexivity.
  - apply ACC; [exact P0|exact U0].
Qed.
Lemma certify_ok C now last pub sm r : certify C now last pub (Some sm) = Ok r -> r = sm /\ last <= sDate sm /\ diff (u64 now) (sDate sm) <= 14400 /\ verifyMap C (sDate sm) pub (sSig sm) (sortMap (sConfig sm)) = true.
Proof.
  unfold certify. destruct ((0 <? last) && (sDate sm <? last)) eqn:A; [discriminate|]. destruct (maxAge <? _) eqn:B; [discriminate|]. destruct (verifyMap _ _ _ _ _) eqn:V; cbn [negb]; [|discriminate]. intros E. split; [congruence|].
  apply N.ltb_ge in B. split; [|auto]. apply andb_false_iff in A as [A|A]; apply N.ltb_ge in A; lia.
Qed.
(* what is accepted: dates never decrease, each is within four hours of the clock, each map is signed *)
Theorem C51_monotone : forall C L us c, let l := fst (updates C L us c) in
  StronglySorted (fun a b => snd (fst (fst a)) <= snd (fst (fst b))) l /\
  Forall (fun a => let '(now, date, m, pub) := a in pub = fPub c /\ fLast c <= date /\ diff (u64 now) date <= 14400 /\ exists sig, edverify C (arr32 pub) (signedImage C date (sortMap m)) sig = true) l.
Proof.
  intros C L us. induction us as [|[o now] us IH]; intros c; cbv zeta; [split; constructor|]. cbn [updates]. destruct (update C L o now c) as [r c'] eqn:U. specialize (IH c'). cbv zeta in IH. destruct (updates C L us c') as [l c2] eqn:US. cbn [fst] in *. destruct IH as [S F].
  apply update_step in U as (P & _ & K). destruct (is_ok r).
  - destruct K as (sm & CE & M & D). apply certify_ok in CE as (_ & A & B & V).
    assert (LB : fLast c <= fLast c'). { rewrite D. unfold startDate in A. destruct (N.eqb_spec (fLast c) 0); lia. }
    cbn [app]. split.
    + constructor; [exact S|]. eapply Forall_impl; [|exact F]. intros [[[n d] m] p] (_ & Q & _). cbn [fst snd]. exact Q.
    + constructor; [rewrite M, P, D; split; [reflexivity|]; split; [rewrite <- D; exact LB|]; split; [exact B|]; exists (sSig sm); exact V|].
      eapply Forall_impl; [|exact F]. intros [[[n d] m] p] (Q1 & Q2 & Q3). split; [congruence|]. split; [lia|exact Q3].
  - destruct K as (M & D). cbn [app]. split; [exact S|]. eapply Forall_impl; [|exact F]. intros [[[n d] m] p] (Q1 & Q2 & Q3). split; [congruence|]. split; [destruct D; lia|exact Q3].
Qed.
Definition idPerm (_ n : nat) : list nat := seq 0 n.
Definition exPriv : bytes := str "config key".
Definition noLib : certLib := mkLib (fun _ => None) (fun _ => true).
Definition exURL : bytes := str "10,a.example;20,b.example".
Definition exCfg : config := mkCfg (edpub toy exPriv) exURL None [] 0 0.
Definition serve (now : Z) (m : list entry) : world := mkWorld idPerm (fun _ => Some (generate toy now exPriv m)) (fun _ => None).
Definition exUpdates : list (world * Z) := [(serve 1000000 exMap, 1000000%Z); (serve 1000100 [], 1000050%Z); (serve 999999 exMap, 1000060%Z)].
Example C51_ex : map (fun a => snd (fst (fst a))) (fst (updates toy noLib exUpdates exCfg)) = [1000000; 1000100].
Proof. vm_compute. reflexivity. Qed.

(* ---------------- C52 ---------------- *)
Definition down : world := mkWorld idPerm (fun _ => None) (fun _ => None).
(* all servers fail once; then all work, but the update crashes *)
Theorem C52_refuted : exists C L o1 o2 now c c1, (exists e, update C L o1 now c = (Err e, c1)) /\ is_ok (fst (update C L o2 now c)) = true /\ fst (update C L o2 now c1) = Panic.
Proof.
  exists toy, noLib, down, (serve 1000000 exMap), 1000000%Z, exCfg. eexists. split; [eexists; vm_compute; reflexivity|]. split; vm_compute; reflexivity.
Qed.
Lemma length_setAt {A} n (a : A) : forall l, length (setAt n a l) = length l.
Proof. induction n as [|n IH]; intros [|b l]; cbn [setAt length]; auto. Qed.
Lemma length_randomize x s : length (randomize x s) = length s.
Proof.
  unfold randomize. assert (G : forall ps (ret : list bytes), length (fold_left (fun ret p => setAt (fst p) (snd p) ret) ps ret) = length ret).
  { induction ps as [|p ps IH]; intros ret; [reflexivity|]. cbn [fold_left]. rewrite IH. apply length_setAt. }
  rewrite G. apply repeat_length.
Qed.
Lemma length_randomizeAll perm gs : forall k, length (randomizeAll perm k gs) = length (concat gs).
Proof. induction gs as [|g gs IH]; intros k; [reflexivity|]. cbn [randomizeAll concat]. rewrite !app_length, length_randomize, IH. reflexivity. Qed.
Lemma length_order p1 p2 sl : length (order p1 sl) = length (order p2 sl).
Proof. unfold order. rewrite !length_randomizeAll. reflexivity. Qed.
Lemma tryFrom_all {A} (f : bytes -> res A) ss : forall cur, (forall s, exists e, f s = Err e) -> ss <> [] -> exists e, tryFrom f ss cur = ((cur + length ss)%nat, Some (Err e)).
Proof.
  induction ss as [|s ss IH]; intros cur F NE; [congruence|]. cbn [tryFrom length]. destruct (F s) as [e ->]. destruct ss as [|s' ss].
  - cbn [tryFrom length]. exists e. f_equal. lia.
  - destruct (IH (S cur) F ltac:(discriminate)) as [e' ->]. exists e'. f_equal. cbn [length]. lia.
Qed.
Lemma skipn_length_le {A} n (l : list A) : (length l <= n)%nat -> skipn n l = [].
Proof. revert l. induction n as [|n IH]; intros [|x l] H; cbn [length skipn] in *; try reflexivity; [lia|apply IH; lia]. Qed.
(* once no server answered, every later update with the same server list crashes, whatever the servers then do *)
Theorem C52_stuck : forall C L o1 now1 c, (forall u, oConfig o1 u = None) -> order (oPerm o1) (sortServers (parseServers (fURL c))) <> [] ->
  forall o2 now2, fst (update C L o2 now2 (snd (update C L o1 now1 c))) = Panic.
Proof.
  intros C L o1 now1 c D NE o2 now2.
  assert (E : exists r c', update C L o1 now1 c = (r, c') /\ fURL c' = fURL c /\ (length (order (oPerm o1) (sortServers (parseServers (fURL c)))) <= fCur c')%nat).
  { unfold update. destruct (order (oPerm o1) _) as [|s0 ss0] eqn:SS; [congruence|]. rewrite <- SS. clear SS. set (servers := order _ _) in *. set (c0 := if fLast c =? 0 then _ else c).
    assert (U0 : fURL c0 = fURL c /\ fCur c0 = fCur c) by (unfold c0; destruct (fLast c =? 0); split; reflexivity). destruct U0 as [U0 K0]. rewrite K0.
    destruct (Nat.le_gt_cases (length servers) (fCur c)) as [G|G].
    - rewrite (skipn_length_le _ _ G). cbn [tryFrom]. eexists. eexists. split; [reflexivity|]. cbn [setCur fURL fCur]. auto.
    - destruct (tryFrom_all (fun u => getConfig C o1 now1 u (fPub c0) (fLast c0)) (skipn (fCur c) servers) (fCur c)) as [e TR].
      { intros s. unfold getConfig. rewrite D. cbn [certify]. eauto. } { intros Q. apply (f_equal (@length bytes)) in Q. rewrite skipn_length in Q. cbn [length] in Q. lia. }
      rewrite TR. eexists. eexists. split; [reflexivity|]. cbn [setCur fURL fCur]. split; [exact U0|]. rewrite skipn_length. lia. }
  destruct E as (r & c' & -> & U & G). cbn [snd]. unfold update. rewrite U. destruct (order (oPerm o2) (sortServers (parseServers (fURL c)))) as [|s0 ss0] eqn:SS.
  - pose proof (length_order (oPerm o1) (oPerm o2) (sortServers (parseServers (fURL c)))) as Q. rewrite SS in Q. destruct (order (oPerm o1) _); [congruence|discriminate].
  - rewrite <- SS. clear SS. set (c1 := if fLast c' =? 0 then _ else c'). assert (K1 : fCur c1 = fCur c') by (unfold c1; destruct (fLast c' =? 0); reflexivity). rewrite K1.
    rewrite (skipn_length_le (fCur c')); [reflexivity|]. rewrite (length_order (oPerm o2) (oPerm o1)). exact G.
Qed.
Example C52_stuck_ex : (forall u, oConfig down u = None) /\ order (oPerm down) (sortServers (parseServers (fURL exCfg))) <> [].
Proof. split; [reflexivity|]. vm_compute. discriminate. Qed.
(* a failed fetch of the CA certificate removes the certificate in use *)
Definition idLib : certLib := mkLib (fun b => Some b) (fun _ => true).
Definition exCfgCA : config := mkCfg (edpub toy exPriv) exURL (Some (str "old certificate")) exMap 1000000 0.
Definition newCA : list entry := [(str "CACertHash", hexenc (sha512 toy (str "new certificate")))].
Theorem C52_ca_refuted : exists C L o now c c1 e, update C L o now c = (Err e, c1) /\ fCA c <> None /\ fCA c1 = None.
Proof. exists toy, idLib, (serve 1000200 newCA), 1000200%Z, exCfgCA. eexists. eexists. split; [vm_compute; reflexivity|]. split; [discriminate|reflexivity]. Qed.
(* the map in use stays the same when an update fails, and the date of the last accepted one *)
Theorem C52_map_partial : forall C L o now c r c', update C L o now c = (r, c') -> is_ok r = false -> fMap c' = fMap c /\ (fLast c <> 0 -> fLast c' = fLast c) /\ fPub c' = fPub c /\ fURL c' = fURL c.
Proof. intros C L o now c r c' E N0. apply update_step in E as (P & U & K). rewrite N0 in K. destruct K as [M D]. split; [exact M|]. split; [intros Q; destruct D; congruence|auto]. Qed.
(* With working servers and a server left to ask an update succeeds.  Missing: the index of the next server is not reset by a failure. *)
Lemma tryFrom_first {A} (f : bytes -> res A) s ss cur a : f s = Ok a -> tryFrom f (s :: ss) cur = (cur, Some (Ok a)).
Proof. intros E. cbn [tryFrom]. rewrite E. reflexivity. Qed.
Theorem C52_works_partial : forall C L o now c cert, (fCur c < length (order (oPerm o) (sortServers (parseServers (fURL c)))))%nat ->
  (forall u, oConfig o u = Some cert) -> certify C now (startDate now c) (fPub c) (Some cert) = Ok cert ->
  (forall h, lookup (str "CACertHash") (sConfig cert) = Some h -> exists hb ca, hexdec h = Some hb /\ (forall u, oCA o u = Some ca) /\ caHash C L ca = Ok hb /\ (forall my, fCA c = Some my -> is_ok (caHash C L my) = true)) ->
  exists c', update C L o now c = (Ok tt, c') /\ fMap c' = sConfig cert /\ fLast c' = sDate cert /\ fCur c' = 0%nat.
Proof.
  intros C L o now c cert LT OC CE CA. unfold update. destruct (order (oPerm o) _) as [|s0 ss0] eqn:SS; [cbn [length] in LT; lia|]. rewrite <- SS in *. clear SS s0 ss0. set (servers := order _ _) in *.
  set (c0 := if fLast c =? 0 then setLast c (u64 (now - skew)) else c).
  assert (C0 : fPub c0 = fPub c /\ fLast c0 = startDate now c /\ fCur c0 = fCur c /\ fCA c0 = fCA c) by (unfold c0, startDate; destruct (fLast c =? 0); repeat split). destruct C0 as (P0 & L0 & K0 & A0). rewrite P0, L0, K0.
  destruct (skipn (fCur c) servers) as [|s ss] eqn:SK; [apply (f_equal (@length bytes)) in SK; rewrite skipn_length in SK; cbn [length] in SK; lia|].
  rewrite (tryFrom_first _ s ss _ cert) by (unfold getConfig; rewrite OC; exact CE). cbn [setCur fCA].
  destruct (lookup (str "CACertHash") (sConfig cert)) as [h|] eqn:LK; [|eexists; split; [reflexivity|]; repeat split].
  destruct (CA h eq_refl) as (hb & ca & HH & OA & CH & MY). rewrite HH, A0.
  assert (MYH : exists my, match fCA c with Some ca => caHash C L ca | None => Ok [] end = Ok my) by (destruct (fCA c) as [m|]; [specialize (MY m eq_refl); destruct (caHash C L m); try discriminate; eauto|eauto]).
  destruct MYH as [my ->]. destruct (beq my hb); [eexists; split; [reflexivity|]; repeat split|].
  rewrite SK. cbn [app]. rewrite (tryFrom_first _ s _ _ ca).
  - eexists. split; [reflexivity|]. repeat split.
  - unfold getCACert. rewrite OA, CH. cbn [rbind]. rewrite HH, beq_refl. reflexivity.
Qed.
Example C52_works_ex : exists c', update toy idLib (mkWorld idPerm (fun _ => Some (generate toy 1000200 exPriv newCA)) (fun _ => Some (str "new certificate"))) 1000200 exCfgCA = (Ok tt, c') /\ fCA c' = Some (str "new certificate").
Proof. eexists. split; vm_compute; reflexivity. Qed.

(* ---------------- C53 ---------------- *)
Definition prioLe (a b : server) : Prop := (vPrio a <= vPrio b)%Z.
Lemma setAt_perm {A} (l : list A) : forall n a b, nth_error l n = Some b -> Permutation (b :: setAt n a l) (a :: l).
Proof.
  induction l as [|x l IH]; intros [|n] a b E; try discriminate; cbn [nth_error setAt] in *; [assert (x = b) as -> by congruence; apply perm_swap|].
  rewrite perm_swap. rewrite (IH n a b E). apply perm_swap.
Qed.
Lemma nth_setAt {A} (l : list A) : forall n m a, (n < length l)%nat -> nth_error (setAt n a l) m = if Nat.eqb m n then Some a else nth_error l m.
Proof.
  induction l as [|x l IH]; intros [|n] [|m] a L; cbn [length setAt nth_error Nat.eqb] in *; try lia; try reflexivity. apply IH. lia.
Qed.
Lemma nth_fold ps : forall (ret : list bytes) m, NoDup (map fst ps) -> Forall (fun p => fst p < length ret)%nat ps ->
  nth_error (fold_left (fun ret p => setAt (fst p) (snd p) ret) ps ret) m = match find (fun p => Nat.eqb m (fst p)) ps with Some p => Some (snd p) | None => nth_error ret m end.
Proof.
  induction ps as [|[n a] ps IH]; intros ret m N0 F; [reflexivity|]. cbn [map fst] in N0. inversion_clear N0. inversion_clear F. cbn [fst] in *. cbn [fold_left find fst snd]. rewrite IH; [|assumption|eapply Forall_impl; [|exact H2]; intros p; cbn; rewrite length_setAt; auto].
  destruct (Nat.eqb_spec m n) as [->|NE].
  - destruct (find _ ps) as [p|] eqn:FI; [|rewrite nth_setAt by assumption; rewrite Nat.eqb_refl; reflexivity]. apply find_some in FI as [I Q]. apply Nat.eqb_eq in Q. elim H. rewrite Q. apply in_map, I.
  - destruct (find _ ps); [reflexivity|]. rewrite nth_setAt by assumption. destruct (Nat.eqb_spec m n); [congruence|reflexivity].
Qed.
Lemma randomize_perm x s : Permutation x (seq 0 (length s)) -> Permutation (randomize x s) s.
Proof.
  intros P. assert (LX : length x = length s) by (rewrite (Permutation_length P), seq_length; reflexivity). assert (NX : NoDup x) by (eapply Permutation_NoDup; [symmetry; exact P|apply seq_NoDup]).
  assert (FX : forall i, In i x -> (i < length s)%nat) by (intros i I; apply (Permutation_in _ P), in_seq in I; lia).
  assert (CF : forall (y : list nat) (z : list bytes), length y = length z -> map fst (combine y z) = y) by (induction y as [|a y IH]; intros [|b z] L; cbn in *; try reflexivity; try discriminate; f_equal; apply IH; lia).
  assert (SN : forall i, (i < length s)%nat -> nth_error (randomize x s) (nth i x 0%nat) = nth_error s i).
  { intros i L. unfold randomize. rewrite nth_fold; [|rewrite CF by exact LX; exact NX|].
    - assert (I : In (nth i x 0%nat, nth i s []) (combine x s)). { rewrite <- combine_nth by exact LX. apply nth_In. rewrite combine_length. lia. }
      destruct (find _ _) as [p|] eqn:FI.
      + apply find_some in FI as [IP Q]. apply Nat.eqb_eq in Q. destruct (In_nth _ _ (0%nat, []) IP) as [j [LJ EJ]]. rewrite combine_length in LJ. rewrite combine_nth in EJ by exact LX. subst p. cbn [fst snd] in *.
        assert (i = j). { apply (NoDup_nth x 0%nat); [exact NX|lia|lia|exact Q]. } subst j. symmetry. apply nth_error_nth'. exact L.
      + exfalso. pose proof (find_none _ _ FI _ I) as Q. cbn [fst] in Q. rewrite Nat.eqb_refl in Q. discriminate.
    - rewrite repeat_length. apply Forall_forall. intros [a b] I. apply in_combine_l in I. cbn [fst]. apply FX, I. }
  apply Permutation_nth_error. split; [apply length_randomize|].
  exists (fun i => if Nat.ltb i (length s) then nth i x 0%nat else i). split.
  - intros i j. destruct (Nat.ltb_spec i (length s)), (Nat.ltb_spec j (length s)); intros E.
    + apply (NoDup_nth x 0%nat); [exact NX|lia|lia|exact E].
    + assert (nth i x 0 < length s)%nat by (apply FX, nth_In; lia). lia.
    + assert (nth j x 0 < length s)%nat by (apply FX, nth_In; lia). lia.
    + exact E.
  - intros n. destruct (Nat.ltb_spec n (length s)); [symmetry; apply SN; assumption|].
    transitivity (@None bytes); [apply nth_error_None; assumption|symmetry; apply nth_error_None; rewrite length_randomize; assumption].
Qed.
Lemma randomize_tag x s p : Permutation x (seq 0 (length s)) -> exists l, map vUrl l = randomize x s /\ Forall (fun v => vPrio v = p) l /\ Permutation l (map (mkSrv p) s).
Proof.
  intros P. exists (map (mkSrv p) (randomize x s)). split; [rewrite map_map; apply map_id|]. split; [apply Forall_forall; intros v I; apply in_map_iff in I as [u [<- _]]; reflexivity|]. apply Permutation_map, randomize_perm, P.
Qed.

Lemma sorted_const p l : Forall (fun v => vPrio v = p) l -> StronglySorted prioLe l.
Proof. induction 1 as [|x l H F IH]; [constructor|]. constructor; [exact IH|]. eapply Forall_impl; [|exact F]. intros y Y. cbn beta in *. unfold prioLe. rewrite H, Y. apply Z.le_refl. Qed.
Lemma sorted_app a b : StronglySorted prioLe a -> StronglySorted prioLe b -> (forall x y, In x a -> In y b -> prioLe x y) -> StronglySorted prioLe (a ++ b).
Proof.
  induction 1 as [|x a S IH F]; intros SB H; [exact SB|]. cbn [app]. constructor; [apply IH; [exact SB|intros u v U V; apply H; [right; exact U|exact V]]|].
  apply Forall_app. split; [exact F|]. apply Forall_forall. intros y Y. apply H; [left; reflexivity|exact Y].
Qed.
Definition orNil (cur : option (list bytes)) : list bytes := match cur with Some c => c | None => [] end.
Lemma groups_spec perm : (forall k n, Permutation (perm k n) (seq 0 n)) -> forall sl prio cur k, StronglySorted prioLe sl -> (cur <> None -> Forall (fun v => prio <= vPrio v)%Z sl) ->
  exists out, map vUrl out = randomizeAll perm k (groups prio cur sl) /\ Permutation out (map (mkSrv prio) (orNil cur) ++ sl) /\ StronglySorted prioLe out.
Proof.
  intros HP. induction sl as [|v sl IH]; intros prio cur k S F; cbn [groups].
  - rewrite app_nil_r. destruct cur as [c|]; cbn [randomizeAll orNil].
    + destruct (randomize_tag (perm k (length c)) c prio (HP _ _)) as (l & E1 & E2 & E3). exists l. rewrite app_nil_r. split; [exact E1|]. split; [exact E3|]. apply (sorted_const prio), E2.
    + exists []. split; [reflexivity|]. split; constructor.
  - inversion_clear S as [|? ? S' FS]. destruct (Z.eqb_spec prio (vPrio v)) as [E|NE].
    + destruct (IH prio (Some (orNil cur ++ [vUrl v])) k S' ltac:(intros _; rewrite E; exact FS)) as (out & E1 & E2 & E3). exists out. split; [exact E1|]. split; [|exact E3]. rewrite E2. cbn [orNil]. rewrite map_app, <- app_assoc. cbn [map app]. rewrite E. destruct v; reflexivity.
    + assert (TAIL : forall k', exists out, map vUrl out = randomizeAll perm k' (groups (vPrio v) (Some [vUrl v]) sl) /\ Permutation out (v :: sl) /\ StronglySorted prioLe out).
      { intros k'. destruct (IH (vPrio v) (Some [vUrl v]) k' S' (fun _ => FS)) as (out & E1 & E2 & E3). exists out. split; [exact E1|]. split; [|exact E3]. rewrite E2. cbn [orNil map app]. destruct v; reflexivity. }
      destruct cur as [c|]; cbn [app randomizeAll orNil map].
      * destruct (TAIL (Datatypes.S k)) as (out & E1 & E2 & E3). destruct (randomize_tag (perm k (length c)) c prio (HP _ _)) as (l & F1 & F2 & F3). exists (l ++ out). split; [rewrite map_app, E1, F1; reflexivity|]. split; [apply Permutation_app; assumption|].
        apply sorted_app; [apply (sorted_const prio), F2|exact E3|]. intros x y X Y. rewrite Forall_forall in F2. specialize (F2 x X). apply (Permutation_in _ E2) in Y. unfold prioLe. rewrite F2. specialize (F ltac:(discriminate)). rewrite Forall_forall in F. apply (F y Y).
      * exact (TAIL k).
Qed.
(* every server once, lower priority numbers first *)
Theorem C53_order : forall perm, (forall k n, Permutation (perm k n) (seq 0 n)) -> forall servers sorted, Permutation sorted servers -> StronglySorted prioLe sorted ->
  exists out, order perm sorted = map vUrl out /\ Permutation out servers /\ StronglySorted prioLe out.
Proof.
  intros perm HP servers sorted P S. destruct (groups_spec perm HP sorted 0%Z None 0%nat S) as (out & E1 & E2 & E3).
  - intros Q. elim Q. reflexivity.
  - exists out. split; [symmetry; exact E1|]. split; [rewrite E2; exact P|exact E3].
Qed.
Lemma insertS_perm s l : Permutation (insertS s l) (s :: l).
Proof. induction l as [|t l IH]; [reflexivity|]. cbn [insertS]. destruct (_ <? _)%Z; [rewrite IH; apply perm_swap|reflexivity]. Qed.
Lemma insertS_sorted s l : StronglySorted prioLe l -> StronglySorted prioLe (insertS s l).
Proof.
  induction 1 as [|t l S IH F]; [repeat constructor|]. cbn [insertS]. destruct (Z.ltb_spec (vPrio t) (vPrio s)) as [H|H].
  - constructor; [exact IH|]. apply Forall_forall. intros y Y. apply (Permutation_in _ (insertS_perm s l)) in Y. destruct Y as [<-|Y]; [unfold prioLe; lia|]. rewrite Forall_forall in F. apply F, Y.
  - constructor; [constructor; assumption|]. constructor; [exact H|]. eapply Forall_impl; [|exact F]. unfold prioLe. intros y Y. lia.
Qed.
Lemma sortServers_ok l : Permutation (sortServers l) l /\ StronglySorted prioLe (sortServers l).
Proof. induction l as [|s l [P S]]; [split; constructor|]. cbn [sortServers fold_right]. split; [rewrite insertS_perm; apply perm_skip, P|apply insertS_sorted, S]. Qed.

(* the configured list: "prio,host;prio,host;…" *)
Fixpoint configured (l : list (bytes * bytes)) : bytes :=
  match l with [] => [] | [(p, u)] => p ++ [44] ++ u | (p, u) :: l' => p ++ [44] ++ u ++ [59] ++ configured l' end.
Definition plain (s : bytes) : Prop := s <> [] /\ Forall (fun c => space c = false /\ c <> 44 /\ c <> 59) s.
Local Ltac fimp F := eapply Forall_impl; [|exact F]; cbn beta; intros; tauto.
Lemma replaceC_id x s : Forall (fun c => c <> x) s -> replaceC x s = s.
Proof. induction 1 as [|c s H F IH]; [reflexivity|]. cbn [replaceC map]. destruct (N.eqb_spec c x); [congruence|]. f_equal. exact IH. Qed.
Lemma replaceC_app x a b : replaceC x (a ++ b) = replaceC x a ++ replaceC x b.
Proof. apply map_app. Qed.
Lemma fieldsF_word w : forall cur r, Forall (fun c => space c = false) w -> fieldsF (w ++ r) cur = fieldsF r (cur ++ w).
Proof. induction w as [|c w IH]; intros cur r F; cbn [app]; [rewrite app_nil_r; reflexivity|]. inversion_clear F. cbn [fieldsF]. rewrite H, IH by assumption. rewrite <- app_assoc. reflexivity. Qed.
Lemma fields_one w : w <> [] -> Forall (fun c => space c = false) w -> fields w = [w].
Proof. intros NE F. unfold fields. rewrite <- (app_nil_r w) at 1. rewrite fieldsF_word by exact F. cbn [app fieldsF]. destruct w; [congruence|reflexivity]. Qed.
Lemma fields_cons w r : w <> [] -> Forall (fun c => space c = false) w -> fields (w ++ 32 :: r) = w :: fields r.
Proof. intros NE F. unfold fields. rewrite fieldsF_word by exact F. cbn [app fieldsF]. change (space 32) with true. cbn [app]. destruct w; [congruence|reflexivity]. Qed.
Lemma parseServer_pair p u : plain p -> plain u -> parseServer (p ++ [44] ++ u) = Some (mkSrv (atoi p) (str "http://" ++ u)).
Proof.
  intros [PN PF] [UN UF]. unfold parseServer. rewrite !replaceC_app, (replaceC_id 44 p), (replaceC_id 44 u); [|fimp UF|fimp PF].
  change (replaceC 44 [44]) with [32]. cbn [app]. rewrite fields_cons, fields_one; [reflexivity|exact UN|fimp UF|exact PN|fimp PF].
Qed.
Lemma configured_word p u : plain p -> plain u -> (p ++ [44] ++ u) <> [] /\ Forall (fun c => space c = false) (p ++ [44] ++ u) /\ replaceC 59 (p ++ [44] ++ u) = p ++ [44] ++ u.
Proof.
  intros [PN PF] [UN UF]. split; [destruct p; [congruence|discriminate]|]. split.
  - apply Forall_app. split; [fimp PF|]. constructor; [reflexivity|]. fimp UF.
  - apply replaceC_id. apply Forall_app. split; [fimp PF|]. constructor; [discriminate|]. fimp UF.
Qed.
Lemma parse_configured l : Forall (fun e => plain (fst e) /\ plain (snd e)) l -> parseServers (configured l) = map (fun e => mkSrv (atoi (fst e)) (str "http://" ++ snd e)) l.
Proof.
  induction 1 as [|[p u] l [P U] F IH]; [reflexivity|]. cbn [fst snd] in *. pose proof (configured_word p u P U) as (W1 & W2 & W3). pose proof (parseServer_pair p u P U) as PS. destruct l as [|e l].
  - cbn [configured map fst snd]. unfold parseServers. rewrite W3, fields_one by assumption. cbn [flat_map]. rewrite PS. reflexivity.
  - assert (E : configured ((p, u) :: e :: l) = (p ++ [44] ++ u) ++ [59] ++ configured (e :: l)) by (cbn [configured]; rewrite <- !app_assoc; reflexivity). rewrite E.
    unfold parseServers in *. rewrite replaceC_app, W3. rewrite replaceC_app. change (replaceC 59 [59]) with [32]. change ([32] ++ replaceC 59 (configured (e :: l))) with (32 :: replaceC 59 (configured (e :: l))). rewrite (fields_cons (p ++ [44] ++ u)) by assumption. cbn [flat_map map fst snd]. rewrite PS, IH. reflexivity.
Qed.
(* from the configured text to the order in which servers are asked *)
Theorem C53_configured : forall l perm, Forall (fun e => plain (fst e) /\ plain (snd e)) l -> (forall k n, Permutation (perm k n) (seq 0 n)) ->
  exists out, order perm (sortServers (parseServers (configured l))) = map (fun e => str "http://" ++ snd e) out /\ Permutation out l /\ StronglySorted (fun a b => atoi (fst a) <= atoi (fst b))%Z out.
Proof.
  intros l perm F HP. pose (f := fun e : bytes * bytes => mkSrv (atoi (fst e)) (str "http://" ++ snd e)). assert (PC : parseServers (configured l) = map f l) by exact (parse_configured l F). rewrite PC. clear PC. destruct (sortServers_ok (map f l)) as [P S].
  destruct (C53_order perm HP _ _ P S) as (out & E1 & E2 & E3). apply Permutation_map_inv in E2 as (out' & -> & E2). exists out'. split; [rewrite E1, map_map; reflexivity|]. split; [symmetry; exact E2|].
  clear - E3. remember (map f out') as m. revert out' Heqm. induction E3 as [|x m S IH F]; intros [|e out'] Q; try discriminate; [constructor|]. cbn [map] in Q. injection Q as -> ->. constructor; [apply IH; reflexivity|].
  apply Forall_forall. intros y Y. rewrite Forall_forall in F. apply (F (f y)). apply in_map, Y.
Qed.
Definition exServers : list (bytes * bytes) := [(str "20", str "c.example"); (str "10", str "a.example"); (str "10", str "b.example")].
Definition swapPerm (_ n : nat) : list nat := rev (seq 0 n).
Example C53_ex : configured exServers = str "20,c.example;10,a.example;10,b.example" /\ order swapPerm (sortServers (parseServers (configured exServers))) = [str "http://b.example"; str "http://a.example"; str "http://c.example"].
Proof. split; vm_compute; reflexivity. Qed.
Example C53_ex_perm : forall k n, Permutation (swapPerm k n) (seq 0 n).
Proof. intros k n. unfold swapPerm. symmetry. apply Permutation_rev. Qed.

(* ---------------- C72, C88, C89 ---------------- *)
(* what a complete configuration says *)
Record complete (c : config) (g g' : settings) : Prop := {
  cpRPC : gRPC g' = match lookup (str "mixclient.RPCPort") (fMap c) with Some (x :: p) => x :: p | _ => gRPC g end;
  cpMix : lookup (str "mixclient.MixAddress") (fMap c) = Some (gMix g');
  cpAcc : lookup (str "mixclient.AccountServer") (fMap c) = Some (gAcc g');
  cpSnd : lookup (str "mixclient.Sender") (fMap c) = Some (gSender g');
  cpWal : lookup (str "walletrpc.ServiceURL") (fMap c) = Some (gWallet g');
  cpLoo : lookup (str "keylookup.ServiceURL") (fMap c) = Some (gLookup g');
  cpGua : lookup (str "guardrpc.ServiceURL") (fMap c) = Some (gGuard g');
  cpTru : exists t b, lookup (str "serviceguard.TrustRoot") (fMap c) = Some t /\ hexdec t = Some b /\ gTrust g' = Some (arr32 b);
  cpCle : exists m d, lookup (str "mix.MaxDelay") (fMap c) = Some m /\ parseUint m = Some d /\ gCleanup g' = (345600 + 2 * d) mod 2 ^ 64;
  cpCA : gCA g' = fCA c;
  cpMap : gMap g' = fMap c;
  cpOwn : exists t b, lookup (str "muteaccd.owner") (fMap c) = Some t /\ hexdec t = Some b /\ gOwner g' = Some (arr32 b);
  cpUsg : lookup (str "muteaccd.usage") (fMap c) = Some (gUsage g') }.
(* InitMute succeeds exactly on complete configurations and then all settings are those of the configuration.
   Missing in C72: on an error the settings are left half applied. *)
Theorem C72_success_partial : forall c g g', initMute c g = (Ok tt, g') <-> complete c g g'.
Proof.
  intros c [rpc mix acc snd wal loo gua tru cle ca ma own usg] g'. unfold initMute, setting. split.
  - intros E. destruct (lookup (str "mixclient.MixAddress") (fMap c)) as [x1|] eqn:L1; [|discriminate].
    destruct (lookup (str "mixclient.AccountServer") (fMap c)) as [x2|] eqn:L2; [|discriminate]. cbn [negb] in E.
    destruct (lookup (str "mixclient.Sender") (fMap c)) as [x3|] eqn:L3; [|discriminate]. cbn [negb] in E.
    destruct (lookup (str "walletrpc.ServiceURL") (fMap c)) as [x4|] eqn:L4; [|discriminate]. cbn [negb] in E.
    destruct (lookup (str "keylookup.ServiceURL") (fMap c)) as [x5|] eqn:L5; [|discriminate]. cbn [negb] in E.
    destruct (lookup (str "guardrpc.ServiceURL") (fMap c)) as [x6|] eqn:L6; [|discriminate]. cbn [negb] in E.
    destruct (lookup (str "serviceguard.TrustRoot") (fMap c)) as [x7|] eqn:L7; [|discriminate]. unfold decodeKey in E at 1. destruct (hexdec x7) as [b7|] eqn:H7; [|discriminate].
    destruct (lookup (str "mix.MaxDelay") (fMap c)) as [x8|] eqn:L8; [|discriminate]. destruct (parseUint x8) as [d|] eqn:H8; [|discriminate].
    destruct (lookup (str "muteaccd.owner") (fMap c)) as [x9|] eqn:L9; [|discriminate]. unfold decodeKey in E. destruct (hexdec x9) as [b9|] eqn:H9; [|discriminate].
    destruct (lookup (str "muteaccd.usage") (fMap c)) as [x10|] eqn:L10; [|discriminate]. cbn [negb orEmpty] in E.
    assert (G := f_equal (@Datatypes.snd _ _) E). cbn [Datatypes.snd] in G. clear E. subst g'.
    constructor; cbn [gRPC gMix gAcc gSender gWallet gLookup gGuard gTrust gCleanup gCA gMap gOwner gUsage]; try assumption; try reflexivity; [exists x7, b7; auto|exists x8, d; auto|exists x9, b9; auto].
  - intros [R M A Sn W Lo Gu (t & b & T1 & T2 & T3) (m & d & D1 & D2 & D3) CA MA (o & b' & O1 & O2 & O3) U].
    destruct g' as [rpc' mix' acc' snd' wal' loo' gua' tru' cle' ca' ma' own' usg']. cbn [gRPC gMix gAcc gSender gWallet gLookup gGuard gTrust gCleanup gCA gMap gOwner gUsage] in *.
    rewrite M, A, Sn, W, Lo, Gu, T1, D1, O1, U. cbn [negb orEmpty]. unfold decodeKey. rewrite T2, D2, O2, T3, D3, O3, CA, MA, R. reflexivity.
Qed.
Definition exFull : list entry := [(str "mixclient.RPCPort", str "2080"); (str "mixclient.MixAddress", str "mix@mute.one"); (str "mixclient.AccountServer", str "accounts");
  (str "mixclient.Sender", str "sender"); (str "walletrpc.ServiceURL", str "wallet"); (str "keylookup.ServiceURL", str "keys"); (str "guardrpc.ServiceURL", str "guard");
  (str "serviceguard.TrustRoot", str "ab"); (str "mix.MaxDelay", str "9223372036854775808"); (str "muteaccd.owner", str "0102"); (str "muteaccd.usage", str "Message")].
Definition exSet : settings := mkSet (str "2000") [] [] [] [] [] [] None 0 None [] None [].
Definition withMap (m : list entry) : config := mkCfg [] [] None m 1 0.
Example C72_ex : is_ok (fst (initMute (withMap exFull) exSet)) = true.
Proof. vm_compute. reflexivity. Qed.
(* the last entry missing: an error, but the new addresses, keys and the map itself are in use *)
Theorem C72_refuted : exists c g g' e, initMute c g = (Err e, g') /\ gMix g' <> gMix g /\ gTrust g' <> gTrust g /\ gMap g' = fMap c /\ gMap g' <> gMap g.
Proof. exists (withMap (removelast exFull)), exSet. eexists. exists "undefined"%string. split; [vm_compute; reflexivity|]. cbn [gMix gTrust gMap]. repeat split; vm_compute; discriminate. Qed.
(* a later complete configuration repairs what a rejected one left *)
Lemma complete_indep c g1 g2 g' : (exists x p, lookup (str "mixclient.RPCPort") (fMap c) = Some (x :: p)) -> complete c g1 g' -> complete c g2 g'.
Proof. intros (x & p & E) [R]. constructor; try assumption. rewrite R, E. reflexivity. Qed.
Theorem C72_repair_partial : forall c g g' bad, (exists x p, lookup (str "mixclient.RPCPort") (fMap c) = Some (x :: p)) -> initMute c g = (Ok tt, g') -> initMute c (snd (initMute bad g)) = (Ok tt, g').
Proof. intros c g g' bad R E. apply C72_success_partial in E. apply C72_success_partial. eapply complete_indep; eauto. Qed.
Example C72_repair_ex : is_ok (fst (initMute (withMap (removelast exFull)) exSet)) = false /\ initMute (withMap exFull) (snd (initMute (withMap (removelast exFull)) exSet)) = initMute (withMap exFull) exSet.
Proof. split; vm_compute; reflexivity. Qed.

(* a one byte trust root is accepted and padded *)
Theorem C88_refuted : exists c g g' t, initMute c g = (Ok tt, g') /\ lookup (str "serviceguard.TrustRoot") (fMap c) = Some t /\ lenN t = 2 /\ gTrust g' = Some (171 :: repeat 0 31).
Proof. exists (withMap exFull), exSet. eexists. exists (str "ab"). split; [vm_compute; reflexivity|]. split; [vm_compute; reflexivity|]. split; vm_compute; reflexivity. Qed.
(* Keys of the right length are used as they are.  Missing: the length is not checked. *)
Theorem C88_key_partial : forall c g g' kt ko, initMute c g = (Ok tt, g') -> lenN kt = 32 -> lenN ko = 32 -> wfb kt -> wfb ko ->
  lookup (str "serviceguard.TrustRoot") (fMap c) = Some (hexenc kt) -> lookup (str "muteaccd.owner") (fMap c) = Some (hexenc ko) -> gTrust g' = Some kt /\ gOwner g' = Some ko.
Proof.
  intros c g g' kt ko E LT LO WT WO KT KO. apply C72_success_partial in E. destruct E as [_ _ _ _ _ _ _ (t & b & T1 & T2 & T3) _ _ _ (o & b' & O1 & O2 & O3) _].
  assert (t = hexenc kt) as -> by congruence. assert (o = hexenc ko) as -> by congruence. rewrite hexdec_enc in T2, O2 by assumption. assert (kt = b) as <- by (injection T2; auto). assert (ko = b') as <- by (injection O2; auto).
  rewrite T3, O3. unfold arr32. split; f_equal; rewrite takeN_app; auto.
Qed.
(* a delay of 2^63 seconds is accepted and twice that is lost *)
Theorem C89_refuted : exists c g g' m d, initMute c g = (Ok tt, g') /\ lookup (str "mix.MaxDelay") (fMap c) = Some m /\ parseUint m = Some d /\ gCleanup g' < d.
Proof. exists (withMap exFull), exSet. eexists. exists (str "9223372036854775808"), 9223372036854775808. split; [vm_compute; reflexivity|]. split; [vm_compute; reflexivity|]. split; vm_compute; reflexivity. Qed.
(* Missing: delays of 2^62 or more are not rejected. *)
Theorem C89_small_partial : forall c g g' m d, initMute c g = (Ok tt, g') -> lookup (str "mix.MaxDelay") (fMap c) = Some m -> parseUint m = Some d -> d < 2 ^ 62 -> gCleanup g' = 2 * 172800 + 2 * d.
Proof.
  intros c g g' m d E LK PU LT. apply C72_success_partial in E. destruct E as [_ _ _ _ _ _ _ _ (m' & d' & D1 & D2 & D3) _ _ _ _]. assert (m' = m) as -> by congruence. assert (d' = d) as -> by congruence.
  rewrite D3. apply N.mod_small. change (2 ^ 64) with 18446744073709551616. change (2 ^ 62) with 4611686018427387904 in LT. lia.
Qed.
Example C89_small_ex : parseUint (str "3600") = Some 3600 /\ 3600 < 2 ^ 62.
Proof. split; vm_compute; reflexivity. Qed.

Print Assumptions C50_covers.
Print Assumptions C50_order.
Print Assumptions C50_accepted.
Print Assumptions C51_monotone.
Print Assumptions C52_refuted.
Print Assumptions C52_stuck.
Print Assumptions C52_ca_refuted.
Print Assumptions C52_map_partial.
Print Assumptions C52_works_partial.
Print Assumptions C53_order.
Print Assumptions C53_configured.
Print Assumptions C72_refuted.
Print Assumptions C72_success_partial.
Print Assumptions C72_repair_partial.
Print Assumptions C88_refuted.
Print Assumptions C88_key_partial.
Print Assumptions C89_refuted.
Print Assumptions C89_small_partial.
