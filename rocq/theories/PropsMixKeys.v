(* C165-C168: the keys of a mix over time. *)
From Coq Require Import Permutation.
From Verif Require Import Base CodecModel CryptoModel MixModel MixProofs PropsMix MixKeysModel.
Local Open Scope N_scope.

(* ------------------------------------------------------------------ *)
(* The executions: the clock does not run backwards, and a turn of the loop starts at most [g] after the one before. *)
Definition readings (t : tick) : Prop := (tkCheck t <= tkNow t /\ tkNow t <= tkExp t /\ tkExp t <= tkFile t)%Z.
Fixpoint orderly (g : Z) (ts : list tick) : Prop :=
  match ts with
  | [] => True
  | t :: ts' => readings t /\ match ts' with [] => True | t' :: _ => (tkFile t <= tkCheck t' /\ tkCheck t' <= tkCheck t + g)%Z end /\ orderly g ts'
  end.
Definition anyOrder (o : ordering) : Prop := forall m, Permutation (o m) m.
Definition orders (ts : list tick) : Prop := forall t, In t ts -> anyOrder (tkOrdSave t) /\ anyOrder (tkOrdStmt t).
Definition noKeys : mixKeys := mkXK [] None [].

Lemma kmGet_set k k' e m : kmGet k' (kmSet k e m) = if beq k k' then Some e else kmGet k' m.
Proof.
  unfold kmSet. cbn [kmGet]. destruct (beq k k') eqn:B; [reflexivity|]. unfold kmDel.
  induction m as [|[q x] m IH]; [reflexivity|]. cbn [filter fst kmGet]. destruct (beq q k) eqn:Q; cbn [negb].
  - apply beq_spec in Q. subst q. rewrite B. exact IH.
  - cbn [kmGet]. rewrite IH. reflexivity.
Qed.
Lemma kmGet_In k e m : kmGet k m = Some e -> In (k, e) m.
Proof.
  induction m as [|[q x] m IH]; [discriminate|]. cbn [kmGet]. destruct (beq q k) eqn:Q; intros H; [|right; auto].
  apply beq_spec in Q. left. congruence.
Qed.
Lemma kmGet_none k m : kmGet k m = None -> ~ In k (map fst m).
Proof.
  induction m as [|[q x] m IH]; [intros _ []|]. cbn [kmGet map fst]. destruct (beq q k) eqn:Q; [discriminate|].
  intros H [E|I]; [subst; rewrite beq_refl in Q; discriminate Q|exact (IH H I)].
Qed.
Lemma NoDup_In_kmGet k e m : NoDup (map fst m) -> In (k, e) m -> kmGet k m = Some e.
Proof.
  induction m as [|[q x] m IH]; [intros _ []|]. cbn [map fst kmGet]. intros N [E|I].
  - assert (q = k) by congruence. assert (x = e) by congruence. subst. rewrite beq_refl. reflexivity.
  - inversion_clear N as [|? ? Nq Nm]. destruct (beq q k) eqn:Q; [|auto].
    apply beq_spec in Q. subst q. exfalso. apply Nq. exact (in_map fst _ _ I).
Qed.
Lemma NoDup_filter_fst (f : bytes * mixEntry -> bool) m : NoDup (map fst m) -> NoDup (map fst (filter f m)).
Proof.
  induction m as [|x m IH]; [auto|]. cbn [map filter]. intros N. inversion_clear N as [|? ? Nx Nm].
  destruct (f x); [|auto]. cbn [map]. constructor; [|auto]. intros I. apply Nx. apply in_map_iff in I as (y & E & J).
  apply filter_In in J as [J _]. rewrite <- E. apply in_map, J.
Qed.
Lemma kmSet_NoDup k e m : NoDup (map fst m) -> NoDup (map fst (kmSet k e m)).
Proof.
  intros N. unfold kmSet. cbn [map fst]. constructor; [|apply NoDup_filter_fst, N].
  intros I. apply in_map_iff in I as (y & E & J). apply filter_In in J as [_ J]. rewrite E, beq_refl in J. discriminate J.
Qed.
Lemma kmGet_filter (f : bytes * mixEntry -> bool) k m : NoDup (map fst m) ->
  kmGet k (filter f m) = match kmGet k m with Some e => if f (k, e) then Some e else None | None => None end.
Proof.
  induction m as [|[q x] m IH]; [reflexivity|]. cbn [map fst]. intros N. inversion_clear N as [|? ? Nx Nm].
  cbn [filter kmGet]. destruct (beq q k) eqn:Q.
  - apply beq_spec in Q. subst q. destruct (f (k, x)) eqn:F; cbn [kmGet]; [rewrite beq_refl; reflexivity|].
    rewrite IH by exact Nm. destruct (kmGet k m) as [e|] eqn:G; [|reflexivity]. exfalso. apply Nx. exact (in_map fst _ _ (kmGet_In _ _ _ G)).
  - destruct (f (q, x)); cbn [kmGet]; rewrite ?Q; auto.
Qed.
Lemma turns_app M adr sgn dur freq a b s : turns M adr sgn dur freq (a ++ b) s = turns M adr sgn dur freq b (turns M adr sgn dur freq a s).
Proof. apply fold_left_app. Qed.
Lemma turns_cons M adr sgn dur freq t b s : turns M adr sgn dur freq (t :: b) s = turns M adr sgn dur freq b (turn M adr sgn dur freq s t).
Proof. reflexivity. Qed.
Lemma orderly_tail g t ts : orderly g (t :: ts) -> orderly g ts.
Proof. intros (_ & _ & H). exact H. Qed.
Lemma last_irr (t x d : tick) l : last (x :: t :: l) d = last (t :: l) t.
Proof. revert t x d. induction l as [|a l IH]; intros t x d; [reflexivity|]. change (last (x :: t :: a :: l) d) with (last (t :: a :: l) d). rewrite IH. symmetry. apply IH. Qed.
Lemma stVerify_mk M l sgn : stVerify M (mkStatement M l sgn) = true.
Proof.
  unfold stVerify, adlVerify, mkStatement. cbn [stAddrs stSig stPub]. rewrite pad32_id by apply edpub_len. rewrite pad64_id by apply edsign_len. apply edverify_sign.
Qed.

(* ------------------------------------------------------------------ *)
(* C165.  A client finds a key: the list signed by the mix names a key that is not expired and whose private part the mix
   has, at all times from the first turn of the loop on, if keys live at least as long as the time between two new keys plus
   the time between two turns.  The list of keys at the start is any list. *)
Theorem C165_available : forall (M : MixCrypto) adr sgn dur freq g t0 ts t k0 now,
  (0 <= freq)%Z -> (freq + g <= dur)%Z -> (freq < tkCheck t0)%Z -> orderly g (t0 :: ts) -> orders (t0 :: ts) ->
  (forall x, In x (t0 :: ts) -> lenN (tkPriv x) = 32) ->
  t = last (t0 :: ts) t0 -> (tkFile t <= now <= tkCheck t + g)%Z ->
  let k := maintain M adr sgn dur freq (t0 :: ts) k0 in
  exists st a priv, xkStmt k = Some st /\ stVerify M st = true /\ stPub st = edpub M sgn /\ In a (stAddrs st) /\
    maAddress a = adr /\ (now <= maExpire a)%Z /\ xkGetPrivate now (maPub a) k = Some priv /\ dhpub M priv = maPub a.
Proof.
  intros M adr sgn dur freq g t0 ts t k0 now Fr Dur F0 Or Od Pl Et Now k. subst k. unfold maintain.
  set (J := fun s : Z * mixKeys => exists e st, kmGet (mePub e) (xkMap (snd s)) = Some e /\ dhpub M (mePriv e) = mePub e /\ lenN (mePriv e) = 32 /\ (fst s + dur <= meExpire e)%Z /\
    meAddress e = adr /\ xkStmt (snd s) = Some st /\ stVerify M st = true /\ stPub st = edpub M sgn /\ In (meAddr e) (stAddrs st)).
  assert (Add : forall x s, lenN (tkPriv x) = 32 -> anyOrder (tkOrdStmt x) -> readings x -> J (tkNow x, xkAdd M adr sgn dur (tkExp x) (tkFile x) (tkPriv x) (tkSave x) (tkOrdSave x) (tkOrdStmt x) s)).
  { intros x s Lp Oa (R1 & R2 & R3). unfold J. cbn [fst snd]. eexists (mkME (dhpub M (tkPriv x)) (tkPriv x) (tkExp x + dur) adr (edpub M sgn)), _.
    unfold xkAdd. set (k1 := xkSave _ _ _ _). assert (E1 : xkMap k1 = kmSet (dhpub M (tkPriv x)) (mkME (dhpub M (tkPriv x)) (tkPriv x) (tkExp x + dur) adr (edpub M sgn)) (xkMap s)).
    { unfold k1, xkSave. destruct (tkSave x); reflexivity. }
    unfold xkUpdate. cbn [xkMap xkStmt mePub mePriv meExpire meAddress]. rewrite E1.
    split; [rewrite kmGet_set, beq_refl; reflexivity|]. split; [reflexivity|]. split; [exact Lp|]. split; [lia|]. split; [reflexivity|]. split; [reflexivity|].
    split; [apply stVerify_mk|]. split; [reflexivity|]. unfold mkStatement. cbn [stAddrs].
    change (meAddr ?e) with ((fun y : bytes * mixEntry => meAddr (snd y)) (dhpub M (tkPriv x), e)). apply in_map.
    eapply Permutation_in; [symmetry; apply Oa|]. left. reflexivity. }
  assert (Step : forall x s, J s -> lenN (tkPriv x) = 32 -> anyOrder (tkOrdStmt x) -> readings x -> (tkNow x <= tkCheck x + g)%Z -> J (turn M adr sgn dur freq s x)).
  { intros x [la k] Js Lp Oa R B. unfold turn. destruct (la <? tkCheck x - freq)%Z eqn:C; [apply Add; assumption|].
    destruct Js as (e & st & G & D & L & X & A & S & V & P & I). exists e, st. cbn [fst snd] in *. unfold xkExpire. cbn [xkMap xkStmt].
    split; [|tauto].
    clear - G X C B Dur R. unfold readings in R. assert (Y : (tkNow x <= meExpire e)%Z) by lia. clear - G Y.
    induction (xkMap k) as [|[q y] m IH]; [discriminate G|]. cbn [filter kmGet snd] in *. destruct (beq q (mePub e)) eqn:Q.
    - assert (y = e) as -> by congruence. replace (meExpire e <? tkNow x)%Z with false by lia. cbn [negb kmGet]. rewrite Q. reflexivity.
    - destruct (negb (meExpire y <? tkNow x)%Z); cbn [kmGet]; rewrite ?Q; auto. }
  assert (Run : forall l x s, orderly g (x :: l) -> orders (x :: l) -> (forall y, In y (x :: l) -> lenN (tkPriv y) = 32) -> J s -> (tkNow (last (x :: l) x) <= tkCheck (last (x :: l) x) + g)%Z -> J (turns M adr sgn dur freq (x :: l) s)).
  { induction l as [|y l IH]; intros x s O1 O2 P1 Js La.
    - rewrite turns_cons. apply Step; [exact Js|apply P1; left; reflexivity|apply O2; left; reflexivity|apply O1|exact La].
    - rewrite turns_cons. apply IH.
      + exact (orderly_tail _ _ _ O1).
      + intros z Hz. apply O2. right. exact Hz.
      + intros z Hz. apply P1. right. exact Hz.
      + destruct O1 as (R1 & (R2 & R3) & R4). apply Step; [exact Js|apply P1; left; reflexivity|apply O2; left; reflexivity|exact R1|]. unfold readings in R1. lia.
      + rewrite last_irr in La. exact La. }
  assert (Rl : readings t).
  { rewrite Et. clear - Or. revert t0 Or. induction ts as [|y l IH]; intros x O; [apply O|]. rewrite last_irr. exact (IH y (orderly_tail _ _ _ O)). }
  assert (Jend : J (turns M adr sgn dur freq (t0 :: ts) (0%Z, k0)) ).
  { assert (J1 : J (turn M adr sgn dur freq (0%Z, k0) t0)).
    { unfold turn. replace (0 <? tkCheck t0 - freq)%Z with true by lia. apply Add; [apply Pl; left; reflexivity|apply Od; left; reflexivity|apply Or]. }
    rewrite turns_cons. destruct ts as [|y l]; [exact J1|]. apply Run; [exact (orderly_tail _ _ _ Or)|intros z Hz; apply Od; right; exact Hz|intros z Hz; apply Pl; right; exact Hz|exact J1|].
    rewrite last_irr in Et. rewrite <- Et. unfold readings in Rl. lia. }
  (* at [now]: the key was added at lastAdd >= tkCheck - freq *)
  assert (Late : (tkCheck t - freq <= fst (turns M adr sgn dur freq (t0 :: ts) (0%Z, k0)))%Z).
  { assert (E : exists s, turns M adr sgn dur freq (t0 :: ts) (0%Z, k0) = turn M adr sgn dur freq s t).
    { exists (turns M adr sgn dur freq (removelast (t0 :: ts)) (0%Z, k0)). rewrite Et. rewrite (app_removelast_last t0 (l := t0 :: ts)) at 1 by discriminate. rewrite turns_app. reflexivity. }
    destruct E as [[la k] ->]. unfold turn. destruct (la <? tkCheck t - freq)%Z eqn:C; cbn [fst]; unfold readings in Rl; lia. }
  destruct Jend as (e & st & G & D & L & X & A & S & V & P & I). exists st, (meAddr e), (mePriv e).
  split; [exact S|]. split; [exact V|]. split; [exact P|]. split; [exact I|]. cbn [meAddr maAddress maExpire maPub].
  split; [exact A|]. assert (Y : (now <= meExpire e)%Z) by lia. split; [exact Y|]. split; [|exact D].
  unfold xkGetPrivate. rewrite G. replace (meExpire e <? now)%Z with false by lia. rewrite pad32_id by exact L. reflexivity.
Qed.
(* Otherwise there is a hole: from the expiry of a new key to the next new key the mix has no key at all, and every key on
   its signed list is expired. *)
Theorem C165_hole : forall (M : MixCrypto) adr sgn dur freq t ts now,
  (freq < tkCheck t)%Z -> anyOrder (tkOrdStmt t) ->
  (forall x, In x ts -> tkCheck x <= tkNow t + freq)%Z ->   (* not yet the time for a new key *)
  (tkExp t + dur < now)%Z ->
  let k := maintain M adr sgn dur freq (t :: ts) noKeys in
  (forall pub, xkGetPrivate now pub k = None) /\
  exists st, xkStmt k = Some st /\ forall a, In a (stAddrs st) -> (maExpire a < now)%Z.
Proof.
  intros M adr sgn dur freq t ts now F Oa Ts Now k. subst k. unfold maintain. rewrite turns_cons. unfold turn.
  replace (0 <? tkCheck t - freq)%Z with true by lia.
  set (k1 := xkAdd _ _ _ _ _ _ _ _ _ _ _).
  assert (M1 : xkMap k1 = [(dhpub M (tkPriv t), mkME (dhpub M (tkPriv t)) (tkPriv t) (tkExp t + dur) adr (edpub M sgn))]).
  { unfold k1, xkAdd, xkUpdate, xkSave. destruct (tkSave t); reflexivity. }
  assert (S1 : exists st, xkStmt k1 = Some st /\ forall a, In a (stAddrs st) -> (maExpire a < now)%Z).
  { eexists. split; [reflexivity|]. intros a I. unfold mkStatement in I. cbn [stAddrs] in I. apply in_map_iff in I as (x & <- & I).
    eapply Permutation_in in I; [|apply Oa]. match type of I with In _ ?m => assert (m = xkMap k1) as E by (unfold k1, xkAdd, xkUpdate, xkSave; destruct (tkSave t); reflexivity) end.
    rewrite E, M1 in I. destruct I as [<-|[]]. exact Now. }
  assert (B1 : forall x, In x (xkMap k1) -> (meExpire (snd x) < now)%Z) by (rewrite M1; intros x [<-|[]]; exact Now).
  clearbody k1. clear M1. revert k1 S1 B1. induction ts as [|x ts IH]; intros k1 S1 B1.
  - cbn [turns fold_left snd]. split; [|exact S1]. intros pub. unfold xkGetPrivate. destruct (kmGet pub (xkMap k1)) as [e|] eqn:G; [|reflexivity].
    apply kmGet_In in G. assert (B := B1 _ G). cbn [snd] in B. replace (meExpire e <? now)%Z with true by lia. reflexivity.
  - rewrite turns_cons. assert (Tx := Ts x (or_introl eq_refl)). assert (E : turn M adr sgn dur freq (tkNow t, k1) x = (tkNow t, xkExpire (tkNow x) k1)) by (unfold turn; replace (tkNow t <? tkCheck x - freq)%Z with false by lia; reflexivity).
    rewrite E. apply IH; [intros y Hy; apply Ts; right; exact Hy|exact S1|]. intros y Hy. cbn [xkMap xkExpire] in Hy. apply filter_In in Hy. apply B1, Hy.
Qed.
Definition plain (t : Z) (p : bytes) : tick := mkTick t t t t p true (fun m => m) (fun m => m).
Lemma plain_order : anyOrder (fun m => m).
Proof. intros m. apply Permutation_refl. Qed.
(* A key lives two hours and there is a new one every hour: available.  With the numbers of clientmix_test.go (a key lives two
   hours, a new one every day) there is a hole. *)
Example C165_case :
  let ts := [plain 100000 (zk 1); plain 103600 (zk 2); plain 107200 (zk 3)] in
  orderly 3600 ts /\ orders ts /\ (forall x, In x ts -> lenN (tkPriv x) = 32) /\
  xkGetPrivate 110000 (dhpub toyMix (zk 1)) (maintain toyMix (str "mix") [1] 7200 3599 ts noKeys) = None /\
  xkGetPrivate 110000 (dhpub toyMix (zk 2)) (maintain toyMix (str "mix") [1] 7200 3599 ts noKeys) = Some (zk 2) /\
  xkGetPrivate 110000 (dhpub toyMix (zk 1)) (maintain toyMix (str "mix") [1] 7200 86400 ts noKeys) = None /\
  xkGetPrivate 110000 (dhpub toyMix (zk 3)) (maintain toyMix (str "mix") [1] 7200 86400 ts noKeys) = None.
Proof.
  split; [unfold orderly, readings; cbn; lia|]. split; [intros t [<-|[<-|[<-|[]]]]; split; apply plain_order|].
  split; [intros t [<-|[<-|[<-|[]]]]; reflexivity|]. vm_compute. auto.
Qed.

(* ------------------------------------------------------------------ *)
(* C166.  Private keys are gone once they are expired: false of the files. *)
(* Every private key that was ever saved is still in its file, however long ago it expired: no file is removed. *)
Definition strictly (ts : list tick) : Prop := forall a t b, ts = a ++ t :: b -> readings t /\ forall x, In x b -> (tkFile t < tkCheck x)%Z.
Lemma strictly_tail t ts : strictly (t :: ts) -> strictly ts.
Proof. intros S a x b E. apply (S (t :: a) x b). rewrite E. reflexivity. Qed.
Lemma fileGet_set n n' d fs : fileGet n' (fileSet n d fs) = if (n =? n')%Z then Some d else fileGet n' fs.
Proof.
  unfold fileSet. cbn [fileGet]. destruct (n =? n')%Z eqn:B; [reflexivity|].
  induction fs as [|[q x] fs IH]; [reflexivity|]. cbn [filter fst fileGet]. destruct (q =? n)%Z eqn:Q; cbn [negb].
  - replace (q =? n')%Z with false by lia. exact IH.
  - cbn [fileGet]. rewrite IH. reflexivity.
Qed.
Lemma xkAdd_files M adr sgn dur x k : xkFiles (xkAdd M adr sgn dur (tkExp x) (tkFile x) (tkPriv x) (tkSave x) (tkOrdSave x) (tkOrdStmt x) k) =
  if tkSave x then fileSet (tkFile x) (map snd (tkOrdSave x (kmSet (dhpub M (tkPriv x)) (mkME (dhpub M (tkPriv x)) (tkPriv x) (tkExp x + dur) adr (edpub M sgn)) (xkMap k)))) (xkFiles k) else xkFiles k.
Proof. unfold xkAdd, xkUpdate, xkSave. destruct (tkSave x); reflexivity. Qed.
Lemma xkAdd_map M adr sgn dur x k : xkMap (xkAdd M adr sgn dur (tkExp x) (tkFile x) (tkPriv x) (tkSave x) (tkOrdSave x) (tkOrdStmt x) k) =
  kmSet (dhpub M (tkPriv x)) (mkME (dhpub M (tkPriv x)) (tkPriv x) (tkExp x + dur) adr (edpub M sgn)) (xkMap k).
Proof. unfold xkAdd, xkUpdate, xkSave. destruct (tkSave x); reflexivity. Qed.
Theorem C166_files : forall (M : MixCrypto) adr sgn dur freq k0 ts1 t ts2,
  strictly (ts1 ++ t :: ts2) -> anyOrder (tkOrdSave t) -> tkSave t = true ->
  (fst (turns M adr sgn dur freq ts1 (0%Z, k0)) < tkCheck t - freq)%Z ->    (* the turn makes a key *)
  exists es e, fileGet (tkFile t) (xkFiles (maintain M adr sgn dur freq (ts1 ++ t :: ts2) k0)) = Some es /\ In e es /\
    mePriv e = tkPriv t /\ mePub e = dhpub M (tkPriv t).
Proof.
  intros M adr sgn dur freq k0 ts1 t ts2 St Oa Sv Ad. unfold maintain. rewrite turns_app, turns_cons.
  destruct (turns M adr sgn dur freq ts1 (0%Z, k0)) as [la k]. cbn [fst] in Ad. unfold turn at 1. replace (la <? tkCheck t - freq)%Z with true by lia.
  destruct (St ts1 t ts2 eq_refl) as [_ Later].
  set (e := mkME (dhpub M (tkPriv t)) (tkPriv t) (tkExp t + dur) adr (edpub M sgn)).
  set (k1 := xkAdd _ _ _ _ _ _ _ _ _ _ _).
  assert (G : exists es, fileGet (tkFile t) (xkFiles k1) = Some es /\ In e es).
  { unfold k1. rewrite xkAdd_files, Sv, fileGet_set, Z.eqb_refl. eexists. split; [reflexivity|].
    change e with (snd (dhpub M (tkPriv t), e)). apply in_map. eapply Permutation_in; [symmetry; apply Oa|]. left. reflexivity. }
  clearbody k1. assert (R : forall x, In x ts2 -> (tkFile t < tkFile x)%Z).
  { intros x Hx. assert (L := Later x Hx). apply in_split in Hx as (a & b & ->). destruct (St (ts1 ++ t :: a) x b) as [(R1 & R2 & R3) _]; [rewrite <- app_assoc; reflexivity|]. lia. }
  clear - R G. generalize (tkNow t) as la. revert k1 G. induction ts2 as [|x ts IH]; intros k1 (es & G & I) la.
  - exists es, e. split; [exact G|]. split; [exact I|]. split; reflexivity.
  - rewrite turns_cons. unfold turn. destruct (la <? tkCheck x - freq)%Z; (apply IH; [intros y Hy; apply R; right; exact Hy|]; exists es; split; [|exact I]).
    + rewrite xkAdd_files. destruct (tkSave x); [|exact G]. rewrite fileGet_set. assert (Rx := R x (or_introl eq_refl)). replace (tkFile x =? tkFile t)%Z with false by lia. exact G.
    + exact G.
Qed.
Theorem C166_refuted : exists (M : MixCrypto) ts now es, strictly ts /\
  let k := maintain M (str "mix") [1] 7200 3600 ts noKeys in
  fileGet 100000 (xkFiles k) = Some es /\ (exists e, In e es /\ mePriv e = zk 1 /\ (meExpire e < now)%Z) /\
  (forall pub, xkGetPrivate now pub k <> Some (zk 1)) /\ now = 200000%Z.
Proof.
  exists toyMix, [plain 100000 (zk 1); plain 110000 (zk 2); plain 110010 (zk 3)], 200000%Z.
  eexists. split.
  { intros a t b E. destruct a as [|a0 [|a1 [|a2 [|? ?]]]]; cbn [app] in E.
    - assert (t = plain 100000 (zk 1)) as -> by congruence. assert (b = [plain 110000 (zk 2); plain 110010 (zk 3)]) as -> by congruence. split; [unfold readings; cbn; lia|intros x [<-|[<-|[]]]; cbn; lia].
    - assert (t = plain 110000 (zk 2)) as -> by congruence. assert (b = [plain 110010 (zk 3)]) as -> by congruence. split; [unfold readings; cbn; lia|intros x [<-|[]]; cbn; lia].
    - assert (t = plain 110010 (zk 3)) as -> by congruence. assert (b = []) as -> by congruence. split; [unfold readings; cbn; lia|intros x []].
    - discriminate E.
    - discriminate E. }
  cbv zeta. split; [vm_compute; reflexivity|]. split; [eexists; split; [left; reflexivity|split; [reflexivity|cbn; lia]]|]. split; [|reflexivity].
  intros pub. set (k := maintain _ _ _ _ _ _ _). assert (E : xkMap k = [(dhpub toyMix (zk 2), mkME (dhpub toyMix (zk 2)) (zk 2) 117200 (str "mix") (edpub toyMix [1]))]) by (vm_compute; reflexivity).
  unfold xkGetPrivate. rewrite E. cbn [kmGet]. destruct (beq _ _); [|discriminate]. cbn [meExpire]. replace (117200 <? 200000)%Z with true by reflexivity. discriminate.
Qed.
(* And it is false of the memory when the turns are further apart than new keys are meant to be: then every turn makes a key
   and none looks for expired keys. *)
Fixpoint spaced (freq : Z) (ts : list tick) : Prop :=
  match ts with
  | [] => True
  | t :: ts' => match ts' with [] => True | t' :: _ => (tkNow t + freq < tkCheck t')%Z end /\ spaced freq ts'
  end.
Theorem C166_never : forall (M : MixCrypto) adr sgn dur freq k0 t0 ts t,
  (freq < tkCheck t0)%Z -> spaced freq (t0 :: ts) -> In t (t0 :: ts) ->
  kmGet (dhpub M (tkPriv t)) (xkMap (maintain M adr sgn dur freq (t0 :: ts) k0)) <> None.
Proof.
  intros M adr sgn dur freq k0 t0 ts t F Sp I. unfold maintain.
  assert (Keep : forall l la k pub, kmGet pub (xkMap k) <> None -> spaced freq l -> match l with [] => True | x :: _ => (la < tkCheck x - freq)%Z end -> kmGet pub (xkMap (snd (turns M adr sgn dur freq l (la, k)))) <> None).
  { induction l as [|x l IH]; intros la k pub G S H; [exact G|]. rewrite turns_cons. unfold turn at 1. replace (la <? tkCheck x - freq)%Z with true by lia.
    apply IH; [|apply S|destruct l; [exact Logic.I|destruct S; lia]]. rewrite xkAdd_map, kmGet_set. destruct (beq _ _); [discriminate|exact G]. }
  assert (H0 : (0 < tkCheck t0 - freq)%Z) by lia. revert H0. generalize 0%Z as la. clear F. revert k0 t0 Sp I. induction ts as [|y ts IH]; intros k0 t0 Sp I la H0; rewrite turns_cons; unfold turn at 1; replace (la <? tkCheck t0 - freq)%Z with true by lia.
  - destruct I as [<-|[]]. cbn [turns fold_left snd]. rewrite xkAdd_map, kmGet_set, beq_refl. discriminate.
  - destruct I as [<-|I].
    + apply Keep; [rewrite xkAdd_map, kmGet_set, beq_refl; discriminate|apply Sp|destruct Sp; lia].
    + apply IH; [apply Sp|exact I|destruct Sp; lia].
Qed.
(* Partial: in memory, with turns at most as far apart as new keys are meant to be, a key is gone two turns after its expiry,
   and no expired key is ever used.  Missing: the files. *)
Theorem C166_memory_partial : forall (M : MixCrypto) adr sgn dur freq g k0 ts t1 t2 pub e,
  (g <= freq)%Z -> (0 <= dur)%Z -> orderly g [t1; t2] ->
  let k := maintain M adr sgn dur freq (ts ++ [t1; t2]) k0 in
  In (pub, e) (xkMap k) -> (tkNow t1 <= meExpire e)%Z.
Proof.
  intros M adr sgn dur freq g k0 ts t1 t2 pub e G D (R1 & (B1 & B2) & R2 & _) k. subst k. unfold maintain. rewrite turns_app.
  destruct (turns M adr sgn dur freq ts (0%Z, k0)) as [la k]. cbn [turns fold_left]. unfold readings in *.
  unfold turn at 2. destruct (la <? tkCheck t1 - freq)%Z eqn:C1; unfold turn.
  - replace (tkNow t1 <? tkCheck t2 - freq)%Z with false by lia. cbn [snd]. intros I. apply filter_In in I as [_ I]. cbn [snd] in I. lia.
  - destruct (la <? tkCheck t2 - freq)%Z eqn:C2; cbn [snd].
    + rewrite xkAdd_map. intros [E|I].
      * assert (E2 := f_equal (fun x => meExpire (snd x)) E). cbn [snd meExpire] in E2. lia.
      * apply filter_In in I as [I _]. cbn [xkMap xkExpire] in I. apply filter_In in I as [_ I]. cbn [snd] in I. lia.
    + intros I. apply filter_In in I as [_ I]. cbn [snd] in I. lia.
Qed.
Theorem C166_unused_partial : forall now pub k priv, xkGetPrivate now pub k = Some priv ->
  exists e, In (pub, e) (xkMap k) /\ (now <= meExpire e)%Z /\ priv = pad32 (mePriv e).
Proof.
  intros now pub k priv. unfold xkGetPrivate. destruct (kmGet pub (xkMap k)) as [e|] eqn:G; [|discriminate]. destruct (meExpire e <? now)%Z eqn:E; [discriminate|].
  intros H. exists e. split; [apply kmGet_In, G|]. split; [lia|congruence].
Qed.
Example C166_case :
  let ts := [plain 100 (zk 1); plain 110 (zk 2); plain 120 (zk 3)] in
  orderly 10 [plain 110 (zk 2); plain 120 (zk 3)] /\ spaced 5 ts /\
  lenN (xkMap (maintain toyMix [] [1] 5 5 ts noKeys)) = 3 /\       (* every turn makes a key: all are kept *)
  lenN (xkMap (maintain toyMix [] [1] 5 10 ts noKeys)) = 1.        (* every other turn: the first one is gone *)
Proof. split; [unfold orderly, readings; cbn; lia|]. split; [cbn; lia|]. vm_compute. auto. Qed.

(* ------------------------------------------------------------------ *)
(* C167.  A mix that is started again from its newest key file has the keys it had. *)
Definition newest (n : Z) (es : list mixEntry) (fs : list (Z * list mixEntry)) : Prop :=
  fileGet n fs = Some es /\ forall n', fileGet n' fs <> None -> (n' <= n)%Z.
Definition keyed (m : kmap) : Prop := NoDup (map fst m) /\ forall p e, In (p, e) m -> p = mePub e /\ lenN p = 32.
Definition savedIn (T : Z) (k : mixKeys) : Prop :=
  keyed (xkMap k) /\
  ((xkMap k = [] /\ xkFiles k = []) \/
   exists n es m0, newest n es (xkFiles k) /\ (n <= T)%Z /\ keyed m0 /\ Permutation es (map snd m0) /\
     (forall pub e, kmGet pub (xkMap k) = Some e -> kmGet pub m0 = Some e) /\
     (forall pub e, kmGet pub m0 = Some e -> (T <= meExpire e)%Z -> kmGet pub (xkMap k) = Some e)).
Lemma savedIn_later T T' k : (T <= T')%Z -> savedIn T k -> savedIn T' k.
Proof.
  intros L (K & [E|(n & es & m0 & Nw & B & K0 & P & A1 & A2)]); (split; [exact K|]); [left; exact E|right].
  exists n, es, m0. split; [exact Nw|]. split; [lia|]. split; [exact K0|]. split; [exact P|]. split; [exact A1|]. intros pub e G X. apply A2; [exact G|lia].
Qed.
Lemma keyed_filter f m : keyed m -> keyed (filter f m).
Proof. intros [N K]. split; [apply NoDup_filter_fst, N|]. intros p e I. apply filter_In in I as [I _]. apply K, I. Qed.
Lemma keyed_set e m : keyed m -> lenN (mePub e) = 32 -> keyed (kmSet (mePub e) e m).
Proof.
  intros [N K] L. split; [apply kmSet_NoDup, N|]. intros p x [E|I].
  - assert (p = mePub e) by congruence. assert (x = e) by congruence. subst. split; [reflexivity|exact L].
  - apply filter_In in I as [I _]. apply K, I.
Qed.
Lemma savedIn_turn M adr sgn dur freq la k t T : savedIn T k -> (T <= tkCheck t)%Z -> readings t -> anyOrder (tkOrdSave t) -> tkSave t = true ->
  savedIn (tkFile t) (snd (turn M adr sgn dur freq (la, k) t)).
Proof.
  intros S0 L R Oa Sv. assert (TF : (T <= tkFile t)%Z) by (unfold readings in R; lia). assert (S := savedIn_later _ (tkFile t) _ TF S0). unfold turn. destruct (la <? tkCheck t - freq)%Z; cbn [snd].
  - destruct S0 as (K & D).
    set (m := kmSet (dhpub M (tkPriv t)) (mkME (dhpub M (tkPriv t)) (tkPriv t) (tkExp t + dur) adr (edpub M sgn)) (xkMap k)).
    assert (Km : keyed m) by (exact (keyed_set (mkME (dhpub M (tkPriv t)) (tkPriv t) (tkExp t + dur) adr (edpub M sgn)) (xkMap k) K (dhpub_len M (tkPriv t)))).
    split; [rewrite xkAdd_map; exact Km|]. right. exists (tkFile t), (map snd (tkOrdSave t m)), m. rewrite xkAdd_files, xkAdd_map, Sv. fold m.
    split; [split; [rewrite fileGet_set, Z.eqb_refl; reflexivity|]|].
    + intros n' G. rewrite fileGet_set in G. destruct (tkFile t =? n')%Z eqn:E; [lia|]. destruct D as [[_ F]|(n & es & m0 & [_ Nw] & B & _)].
      * rewrite F in G. contradiction.
      * apply Nw in G. unfold readings in R. lia.
    + split; [lia|]. split; [exact Km|]. split; [apply Permutation_map, Oa|]. split; auto.
  - destruct S as (K & D). split; [apply keyed_filter, K|]. unfold xkExpire. cbn [xkMap xkFiles]. destruct D as [[E F]|(n & es & m0 & Nw & B & K0 & P & A1 & A2)].
    + left. rewrite E. split; [reflexivity|exact F].
    + right. exists n, es, m0. split; [exact Nw|]. split; [exact B|]. split; [exact K0|]. split; [exact P|]. split.
      * intros pub e G. rewrite kmGet_filter in G by apply K. destruct (kmGet pub (xkMap k)) as [x|] eqn:H; [|discriminate G].
        destruct (negb _); [|discriminate G]. assert (x = e) as <- by congruence. apply A1, H.
      * intros pub e G X. rewrite kmGet_filter by apply K. rewrite (A2 _ _ G X). cbn [snd]. unfold readings in R. replace (meExpire e <? tkNow t)%Z with false by lia. reflexivity.
Qed.
Lemma savedIn_run M adr sgn dur freq g now ts : forall T la k, orderly g ts -> orders ts -> (forall t, In t ts -> tkSave t = true /\ (tkFile t <= now)%Z) ->
  savedIn T k -> (T <= now)%Z -> match ts with [] => True | t :: _ => (T <= tkCheck t)%Z end -> savedIn now (snd (turns M adr sgn dur freq ts (la, k))).
Proof.
  induction ts as [|t ts IH]; intros T la k O Oa Sv S L H; [exact (savedIn_later _ _ _ L S)|].
  rewrite turns_cons. destruct (Sv t (or_introl eq_refl)) as [S1 S2]. destruct O as (R & H2 & O').
  assert (St := savedIn_turn M adr sgn dur freq la k t T S H R (proj1 (Oa t (or_introl eq_refl))) S1).
  destruct (turn M adr sgn dur freq (la, k) t) as [la' k']. apply (IH (tkFile t)); [exact O'|intros x Hx; apply Oa; right; exact Hx|intros x Hx; apply Sv; right; exact Hx|exact St|exact S2|].
  destruct ts; [exact I|apply H2].
Qed.
Definition loadKeys (es : list mixEntry) (m : kmap) : kmap := fold_left (fun m e => kmSet (pad32 (mePub e)) e m) es m.
Lemma load_keyed es : forall m, keyed m -> (forall e, In e es -> lenN (mePub e) = 32) -> keyed (loadKeys es m).
Proof.
  induction es as [|e es IH]; intros m K L; [exact K|]. cbn [loadKeys fold_left]. apply IH; [|intros x Hx; apply L; right; exact Hx].
  rewrite pad32_id by (apply L; left; reflexivity). apply keyed_set; [exact K|apply L; left; reflexivity].
Qed.
Lemma load_get es : forall m e, (forall e, In e es -> lenN (mePub e) = 32) -> NoDup (map mePub es) ->
  forall pub, kmGet pub (loadKeys es m) = Some e <-> (In e es /\ mePub e = pub) \/ (~ In pub (map mePub es) /\ kmGet pub m = Some e).
Proof.
  induction es as [|x es IH]; intros m e L N pub.
  - cbn. split; [intros H; right; split; [intros []|exact H]|intros [[[] _]|[_ H]]; exact H].
  - cbn [loadKeys fold_left map]. cbn [map] in N. inversion_clear N as [|? ? Nx Ns]. rewrite pad32_id by (apply L; left; reflexivity).
    rewrite IH by (auto; intros y Hy; apply L; right; exact Hy). rewrite kmGet_set. split.
    + intros [[I E]|[No G]]; [left; split; [right; exact I|exact E]|]. destruct (beq (mePub x) pub) eqn:B.
      * apply beq_spec in B. left. split; [left; congruence|]. assert (x = e) as <- by congruence. exact B.
      * right. split; [|exact G]. intros [E|I]; [rewrite E, beq_refl in B; discriminate B|contradiction].
    + intros [[[<-|I] E]|[No G]].
      * right. rewrite <- E, beq_refl. split; [exact Nx|reflexivity].
      * left. split; assumption.
      * right. split; [intros I; apply No; right; exact I|]. replace (beq (mePub x) pub) with false; [exact G|]. symmetry. apply beq_neq. intros E. apply No. left. exact E.
Qed.
Theorem C167_restart : forall (M : MixCrypto) adr sgn dur freq g ts ord now n es k',
  orderly g ts -> orders ts -> (0 <= now)%Z -> match ts with [] => True | t :: _ => (0 <= tkCheck t)%Z end ->
  (forall t, In t ts -> tkSave t = true /\ (tkFile t <= now)%Z) -> anyOrder ord ->
  let k := maintain M adr sgn dur freq ts noKeys in
  newest n es (xkFiles k) ->
  let k1 := xkUnmarshal M sgn now es ord k' in
  (forall pub, xkGetPrivate now pub k1 = xkGetPrivate now pub k) /\
  exists st, xkStmt k1 = Some st /\ stVerify M st = true /\
    forall a, In a (stAddrs st) <-> exists e, kmGet (maPub a) (xkMap k) = Some e /\ (now <= meExpire e)%Z /\ a = meAddr e.
Proof.
  intros M adr sgn dur freq g ts ord now n es k' O Oa N0 T0 Sv Ob k Nw k1.
  assert (S : savedIn now k).
  { unfold k, maintain. apply savedIn_run with (g := g) (T := 0%Z); try assumption. split; [split; [constructor|intros p e []]|left; split; reflexivity]. }
  destruct S as (K & [[E F]|(n0 & es0 & m0 & Nw0 & B & K0 & P & A1 & A2)]); [rewrite F in Nw; destruct Nw as [Nw _]; discriminate Nw|].
  assert (Ee : es0 = es).
  { destruct Nw as [G1 X1], Nw0 as [G0 X0]. assert (n = n0); [|congruence]. assert (n <= n0)%Z by (apply X0; congruence). assert (n0 <= n)%Z by (apply X1; congruence). lia. }
  subst es0. clear Nw Nw0.
  assert (Mp : map mePub (map snd m0) = map fst m0).
  { rewrite map_map. apply map_ext_in. intros [p e] I. symmetry. apply (proj2 K0), I. }
  assert (Nd : NoDup (map mePub es)).
  { eapply Permutation_NoDup; [apply Permutation_map; symmetry; exact P|]. rewrite Mp. apply K0. }
  assert (Le : forall e, In e es -> lenN (mePub e) = 32 /\ In (mePub e, e) m0).
  { intros e I. eapply Permutation_in in I; [|exact P]. apply in_map_iff in I as ([p x] & Ex & I). cbn [snd] in Ex. subst x.
    destruct (proj2 K0 _ _ I) as [E1 E2]. subst p. split; assumption. }
  assert (Kl : keyed (loadKeys es [])) by (apply load_keyed; [split; [constructor|intros p e []]|intros e I; apply Le, I]).
  assert (G : forall pub e, kmGet pub (loadKeys es []) = Some e <-> kmGet pub m0 = Some e).
  { intros pub e. rewrite load_get; [|intros x I; apply Le, I|exact Nd]. split.
    - intros [[I Ep]|[_ H]]; [|discriminate H]. subst pub. apply NoDup_In_kmGet; [apply K0|apply Le, I].
    - intros H. left. apply kmGet_In in H. destruct (proj2 K0 _ _ H) as [Ep _]. split; [|symmetry; exact Ep].
      eapply Permutation_in; [symmetry; exact P|]. exact (in_map snd _ _ H). }
  assert (M1 : xkMap k1 = filter (fun x => negb (meExpire (snd x) <? now)%Z) (loadKeys es [])) by reflexivity.
  assert (Q : forall pub e, kmGet pub (xkMap k1) = Some e <-> kmGet pub (xkMap k) = Some e /\ (now <= meExpire e)%Z).
  { intros pub e. rewrite M1, kmGet_filter by apply Kl. split.
    - destruct (kmGet pub (loadKeys es [])) as [x|] eqn:H; [|discriminate]. cbn [snd]. destruct (meExpire x <? now)%Z eqn:X; [discriminate|]. cbn [negb]. intros Y. assert (x = e) as -> by congruence.
      apply G in H. split; [apply A2; [exact H|lia]|lia].
    - intros [H X]. rewrite (proj2 (G pub e) (A1 _ _ H)). cbn [snd]. replace (meExpire e <? now)%Z with false by lia. reflexivity. }
  split.
  - intros pub. unfold xkGetPrivate. destruct (kmGet pub (xkMap k1)) as [e|] eqn:H.
    + apply Q in H as [H X]. rewrite H. reflexivity.
    + destruct (kmGet pub (xkMap k)) as [e|] eqn:H2; [|reflexivity]. destruct (meExpire e <? now)%Z eqn:X; [reflexivity|].
      exfalso. assert (Y : kmGet pub (xkMap k1) = Some e) by (apply Q; split; [exact H2|lia]). congruence.
  - eexists. split; [reflexivity|]. split; [apply stVerify_mk|]. intros a. unfold mkStatement. cbn [stAddrs].
    assert (K1 : keyed (xkMap k1)) by (rewrite M1; apply keyed_filter, Kl).
    change (xkMap (xkExpire now _)) with (xkMap k1). split.
    + intros I. apply in_map_iff in I as ([p e] & <- & I). eapply Permutation_in in I; [|apply Ob]. cbn [snd]. destruct (proj2 K1 _ _ I) as [Ep _]. subst p.
      exists e. cbn [meAddr maPub]. assert (H := NoDup_In_kmGet _ _ _ (proj1 K1) I). apply Q in H as [H1 H2]. auto.
    + intros (e & H1 & H2 & ->). cbn [meAddr maPub] in H1. apply in_map_iff. exists (mePub e, e). split; [reflexivity|].
      eapply Permutation_in; [symmetry; apply Ob|]. apply kmGet_In. apply Q. split; assumption.
Qed.
(* The hypothesis that the writes succeed is needed, and AddKey does not check it: a key can be on the signed list and in no file. *)
Theorem C167_unsaved_refuted : exists (M : MixCrypto) t es, tkSave t = false /\
  let k := maintain M (str "mix") [1] 7200 3600 [plain 100000 (zk 1); t] noKeys in
  newest 100000 es (xkFiles k) /\
  xkGetPrivate 110001 (dhpub M (zk 2)) k = Some (zk 2) /\ (exists st a, xkStmt k = Some st /\ In a (stAddrs st) /\ maPub a = dhpub M (zk 2)) /\
  xkGetPrivate 110001 (dhpub M (zk 2)) (xkUnmarshal M [1] 110001 es (fun m => m) noKeys) = None.
Proof.
  exists toyMix, (mkTick 110000 110000 110000 110000 (zk 2) false (fun m => m) (fun m => m)). eexists. split; [reflexivity|]. cbv zeta.
  split; [split; [vm_compute; reflexivity|]|].
  - intros n'. set (k := maintain _ _ _ _ _ _ _). assert (E : exists d, xkFiles k = [(100000%Z, d)]) by (eexists; vm_compute; reflexivity). destruct E as [d E]. rewrite E. cbn [fileGet].
    destruct (100000 =? n')%Z eqn:X; [lia|intros []; reflexivity].
  - split; [vm_compute; reflexivity|]. split; [|vm_compute; reflexivity]. eexists. exists (mkMA (dhpub toyMix (zk 2)) 117200 (str "mix") (edpub toyMix [1])).
    split; [vm_compute; reflexivity|]. split; [vm_compute; left; reflexivity|reflexivity].
Qed.
Example C167_case :
  let k := maintain toyMix (str "mix") [1] 7200 3600 [plain 100000 (zk 1); plain 105000 (zk 2); plain 105010 (zk 3)] noKeys in
  exists es, newest 105000 es (xkFiles k) /\ lenN es = 2 /\
  let k1 := xkUnmarshal toyMix [1] 108000 es (@rev _) noKeys in
  xkGetPrivate 108000 (dhpub toyMix (zk 1)) k1 = None /\ xkGetPrivate 108000 (dhpub toyMix (zk 2)) k1 = Some (zk 2).
Proof.
  cbv zeta. eexists. split; [split; [vm_compute; reflexivity|]|].
  - intros n'. set (k := maintain _ _ _ _ _ _ _). assert (E : exists d d', xkFiles k = [(105000%Z, d); (100000%Z, d')]) by (do 2 eexists; vm_compute; reflexivity). destruct E as (d & d' & E). rewrite E. cbn [fileGet].
    destruct (105000 =? n')%Z eqn:X; [lia|]. destruct (100000 =? n')%Z eqn:Y; [lia|]. intros H. contradiction.
  - vm_compute. auto.
Qed.

(* ------------------------------------------------------------------ *)
(* C168.  GetBoundaryTime returns the first and the last expiry, in whatever order the map is read. *)
Theorem C168_boundary : forall ord k, anyOrder ord -> (forall x, In x (xkMap k) -> (0 < meExpire (snd x))%Z) -> xkMap k <> [] ->
  exists a b, In a (xkMap k) /\ In b (xkMap k) /\ xkBoundary ord k = (meExpire (snd a), meExpire (snd b)) /\
    forall x, In x (xkMap k) -> (meExpire (snd a) <= meExpire (snd x) <= meExpire (snd b))%Z.
Proof.
  intros ord k Oa Pos Ne. unfold xkBoundary.
  assert (G : forall l a b, (0 < meExpire (snd a))%Z -> (0 < meExpire (snd b))%Z -> (forall x, In x l -> (0 < meExpire (snd x))%Z) ->
    exists a' b', In a' (a :: l) /\ In b' (b :: l) /\ fold_left boundStep l (meExpire (snd a), meExpire (snd b)) = (meExpire (snd a'), meExpire (snd b')) /\
    (forall x, In x (a :: l) -> (meExpire (snd a') <= meExpire (snd x))%Z) /\ (forall x, In x (b :: l) -> (meExpire (snd x) <= meExpire (snd b'))%Z)).
  { induction l as [|y l IH]; intros a b Pa Pb Pl.
    - exists a, b. split; [left; reflexivity|]. split; [left; reflexivity|]. split; [reflexivity|]. split; intros x [<-|[]]; lia.
    - cbn [fold_left]. assert (Py := Pl y (or_introl eq_refl)).
      set (a1 := if (meExpire (snd y) <=? meExpire (snd a))%Z then y else a). set (b1 := if (meExpire (snd b) <=? meExpire (snd y))%Z then y else b).
      assert (E : boundStep (meExpire (snd a), meExpire (snd b)) y = (meExpire (snd a1), meExpire (snd b1))).
      { unfold boundStep, a1, b1. replace (meExpire (snd a) =? 0)%Z with false by lia. replace (meExpire (snd b) =? 0)%Z with false by lia. rewrite !Bool.orb_false_r.
        destruct (meExpire (snd y) <=? meExpire (snd a))%Z, (meExpire (snd b) <=? meExpire (snd y))%Z; reflexivity. }
      assert (Ha : In a1 [a; y] /\ (meExpire (snd a1) <= meExpire (snd a))%Z /\ (meExpire (snd a1) <= meExpire (snd y))%Z).
      { unfold a1. destruct (meExpire (snd y) <=? meExpire (snd a))%Z eqn:Q; (split; [cbn; tauto|lia]). }
      assert (Hb : In b1 [b; y] /\ (meExpire (snd b) <= meExpire (snd b1))%Z /\ (meExpire (snd y) <= meExpire (snd b1))%Z).
      { unfold b1. destruct (meExpire (snd b) <=? meExpire (snd y))%Z eqn:Q; (split; [cbn; tauto|lia]). }
      rewrite E. clearbody a1 b1. destruct Ha as (Ia & Ha1 & Ha2), Hb as (Ib & Hb1 & Hb2).
      assert (Pa1 : (0 < meExpire (snd a1))%Z) by (destruct Ia as [<-|[<-|[]]]; lia).
      destruct (IH a1 b1) as (a' & b' & Ja & Jb & F & L1 & L2); [exact Pa1|lia|intros x Hx; apply Pl; right; exact Hx|].
      exists a', b'. split; [destruct Ja as [<-|Ja]; [destruct Ia as [<-|[<-|[]]]; cbn; tauto|right; right; exact Ja]|].
      split; [destruct Jb as [<-|Jb]; [destruct Ib as [<-|[<-|[]]]; cbn; tauto|right; right; exact Jb]|]. split; [exact F|].
      split; intros x [<-|[<-|I]].
      + assert (L := L1 a1 (or_introl eq_refl)). lia.
      + assert (L := L1 a1 (or_introl eq_refl)). lia.
      + apply L1. right. exact I.
      + assert (L := L2 b1 (or_introl eq_refl)). lia.
      + assert (L := L2 b1 (or_introl eq_refl)). lia.
      + apply L2. right. exact I. }
  assert (In1 : forall x, In x (ord (xkMap k)) <-> In x (xkMap k)).
  { intros x. split; apply Permutation_in; [|symmetry]; apply Oa. }
  destruct (ord (xkMap k)) as [|y l] eqn:El.
  - exfalso. destruct (xkMap k) as [|x m]; [apply Ne; reflexivity|]. apply (In1 x). left. reflexivity.
  - cbn [fold_left]. assert (Py : (0 < meExpire (snd y))%Z) by (apply Pos, In1; left; reflexivity).
    assert (E : boundStep (0%Z, 0%Z) y = (meExpire (snd y), meExpire (snd y))).
    { unfold boundStep. rewrite !Z.eqb_refl, !Bool.orb_true_r. reflexivity. }
    rewrite E. destruct (G l y y Py Py) as (a & b & Ja & Jb & F & L1 & L2); [intros x Hx; apply Pos, In1; right; exact Hx|].
    exists a, b. split; [apply In1, Ja|]. split; [apply In1, Jb|]. split; [exact F|]. intros x Hx. apply In1 in Hx. split; [apply L1, Hx|apply L2, Hx].
Qed.
Example C168_case : let k := maintain toyMix [] [1] 7200 3600 [plain 100000 (zk 1); plain 105000 (zk 2)] noKeys in
  xkBoundary (@rev _) k = (107200, 112200)%Z /\ xkBoundary (fun m => m) k = (107200, 112200)%Z /\ xkBoundary (fun m => m) noKeys = (0, 0)%Z.
Proof. vm_compute. auto. Qed.

Print Assumptions C165_available.
Print Assumptions C165_hole.
Print Assumptions C166_files.
Print Assumptions C166_refuted.
Print Assumptions C166_never.
Print Assumptions C166_memory_partial.
Print Assumptions C166_unused_partial.
Print Assumptions C167_restart.
Print Assumptions C167_unsaved_refuted.
Print Assumptions C168_boundary.
