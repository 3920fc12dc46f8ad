(* C181-C183: the storages of a key pool. *)
From Coq Require Import Permutation.
From Verif Require Import Base Base64Model Base64Proofs CryptoModel Maps Asn1Model KeyPoolModel PropsKeyPool PoolStoreModel.
Delimit Scope string_scope with string.
Local Open Scope N_scope.

(* ---- specification ---- *)
(* a key that fits into the format of the stored keys *)
Definition fits (k : pubKey) : Prop :=
  (- 2 ^ 63 <= pkExp k < 2 ^ 63)%Z /\ lenN (pkUsage k) < 2 ^ 31 /\ lenN (bigBytes (pkX k)) < 2 ^ 31 /\ lenN (bigBytes (pkY k)) < 2 ^ 31
  /\ forall d, keyMarshal k = Some d -> lenN d < 2 ^ 31 /\ wfb d.
(* storages without content *)
Definition fresh (w : world) : Prop := forall i b, nth_error w i = Some b -> b = Dir [] \/ b = Db [].
Definition tables (w : world) (i : nat) : bool := match nth_error w i with Some (Db _) => true | _ => false end.
Definition callbacksOf (C : Crypto) (w : world) : callbacks := setup C (tables w) (length w).
(* the operating system and the database return all files and all rows, in any order *)
Definition complete (o : orders) : Prop := (forall d, Permutation (oDir o d) (map snd d)) /\ (forall t, Permutation (oRows o t) (map (fun r => snd (snd r)) t)).
(* a history of calls of Current; the service may be restarted before a call *)
Record event := mkEvent { vNow : Z; vPoint : option (N * N); vFaults : faults; vRestart : bool }.
Definition start (v : event) (p : pool) : pool := if vRestart v then newPool (oGen p) else p.
(* the keys returned by the calls, the pool and the storages *)
Fixpoint runs (C : Crypto) (cb : callbacks) (h : list event) (p : pool) (w : world) : list pubKey * pool * world :=
  match h with
  | [] => ([], p, w)
  | v :: h' =>
    let '(r, p1, w1) := currentS C cb (vFaults v) (vNow v) (vPoint v) (start v p) w in
    let '(ks, p2, w2) := runs C cb h' p1 w1 in
    (match r with Ok (k, _) => k :: ks | _ => ks end, p2, w2)
  end.
(* all keys that may be generated in a history *)
Definition gens (C : Crypto) (g : generator) (h : list event) : list pubKey :=
  flat_map (fun v => match genKey C g (vNow v) (vPoint v) with Ok k => [k] | _ => [] end) h.
Definition noTorn (h : list event) : Prop := forall v i b, In v h -> vFaults v i <> Torn b.
Definition distinct (ks : list pubKey) : Prop := forall a b, In a ks -> In b ks -> pkID a = pkID b -> a = b.
Definition allFine : faults := fun _ => Fine.
(* the pool of a service that trusts the keys [trust] *)
Definition trusting (g : generator) (trust : list bytes) : pool := mkPool g [] trust None None.

(* ---- the chain of callbacks ---- *)
Definition write1 (i : nat) (tb : bool) : writeF := if tb then dbWriteCb i else dirWriteCb i.
Definition load1 (C : Crypto) (i : nat) (tb : bool) : loadF := if tb then dbLoadCb C i else dirLoadCb C i.
Definition runWrite (cb : callbacks) : writeF := fun fl id u d w => match cWrite cb with None => (Ok tt, w) | Some f => f fl id u d w end.
Lemma runWrite_S C tb n fl id u d w : runWrite (setup C tb (S n)) fl id u d w =
  match runWrite (setup C tb n) fl id u d w with (Ok _, w') => write1 n (tb n) fl id u d w' | (r, w') => (r, w') end.
Proof.
  unfold runWrite, write1. cbn [setup]. destruct (tb n); cbn [addDb addDir registerStorage cWrite]; destruct (cWrite (setup C tb n)); reflexivity.
Qed.
Lemma load_S C tb n fl o now w p : load (setup C tb (S n)) fl o now w p =
  match load (setup C tb n) fl o now w p with (Ok _, p') => load1 C n (tb n) fl o now w p' | (r, p') => (r, p') end.
Proof.
  unfold load, load1. cbn [setup]. destruct (tb n); cbn [addDb addDir registerStorage cLoad]; destruct (cLoad (setup C tb n)); reflexivity.
Qed.
Lemma nth_upd i j b w : nth_error (upd i b w) j = if Nat.eqb i j then (match nth_error w i with Some _ => Some b | None => None end) else nth_error w j.
Proof.
  revert i j. induction w as [|x w IH]; intros i j; cbn [upd].
  - destruct i, j; try reflexivity. cbn [nth_error]. destruct (Nat.eqb (S i) (S j)); reflexivity.
  - destruct i as [|i], j as [|j]; cbn [nth_error Nat.eqb]; try reflexivity. apply IH.
Qed.
Lemma len_upd i b w : length (upd i b w) = length w.
Proof. revert i. induction w as [|x w IH]; intros [|i]; cbn [upd length]; try reflexivity. f_equal. apply IH. Qed.

(* the content of storages *)
Definition holds (K : list pubKey) (d : bytes) : Prop := exists k, In k K /\ keyMarshal k = Some d.
Definition bOk (K : list pubKey) (b : backend) : Prop :=
  match b with
  | Dir d => (forall n v, In (n, v) d -> exists k c, v = Some c /\ In k K /\ keyMarshal k = Some c)
  | Db t => (forall n u e, In (n, (u, e)) t -> exists k c, n = hexenc (pkID k) /\ e = b64enc c /\ In k K /\ keyMarshal k = Some c)
  end.
Definition wOk (K : list pubKey) (w : world) : Prop := forall i b, nth_error w i = Some b -> bOk K b.
Definition kinds (tb : nat -> bool) (w : world) : Prop := forall i b, nth_error w i = Some b -> match b with Db _ => tb i = true | Dir _ => tb i = false end.
Definition inB (k : pubKey) (b : backend) : Prop :=
  match b with
  | Dir d => exists c, In (fileName (pkID k), Some c) d /\ keyMarshal k = Some c
  | Db t => exists u c, In (hexenc (pkID k), (u, b64enc c)) t /\ keyMarshal k = Some c
  end.

Lemma In_mdel {V} (k : bytes) (x : bytes * V) (m : map_ V) : In x (mdel k m) -> In x m /\ fst x <> k.
Proof.
  induction m as [|[k' v] m IH]; cbn [mdel]; [intros []|]. destruct (beq k k') eqn:E.
  - intros I. destruct (IH I). split; [right; assumption|assumption].
  - intros [<-|I]; [split; [left; reflexivity|cbn [fst]; intros ->; rewrite beq_refl in E; discriminate E]|]. destruct (IH I). split; [right; assumption|assumption].
Qed.
Lemma mdel_In {V} (k : bytes) (x : bytes * V) (m : map_ V) : In x m -> fst x <> k -> In x (mdel k m).
Proof.
  induction m as [|[k' v] m IH]; cbn [mdel]; [intros []|]. intros [<-|I] N.
  - cbn [fst] in N. destruct (beq k k') eqn:E; [apply beq_spec in E; congruence|left; reflexivity].
  - destruct (beq k k'); [apply IH; assumption|right; apply IH; assumption].
Qed.

Lemma In_mget_some {V} (k : bytes) (v : V) (m : map_ V) : In (k, v) m -> mget k m <> None.
Proof.
  induction m as [|[k' v'] m IH]; cbn [mget]; [intros []|]. intros [X|X]; [apply pair_equal_spec in X as [<- <-]; rewrite beq_refl; discriminate|].
  destruct (beq k k'); [discriminate|exact (IH X)].
Qed.
Section Chain.
Variables (C : Crypto) (K : list pubKey) (tb : nat -> bool).
Hypothesis KF : forall k, In k K -> fits k /\ lenN (pkID k) = 32 /\ wfb (pkID k) /\ lenN (pkSigner k) = 32 /\ lenN (pkSig k) = 64.
Hypothesis KD : distinct K.
Lemma K_decode k c : In k K -> keyMarshal k = Some c -> keyUnmarshal c = Ok k.
Proof.
  intros I E. destruct (KF k I) as ((X & U & LX & LY & D) & LI & _ & LS & LG). pose proof (C91_codec k c [] E (proj1 (D c E)) LI LS LG X U LX LY) as R.
  rewrite app_nil_r in R. exact R.
Qed.
Lemma fileName_inj k k' : In k K -> In k' K -> fileName (pkID k) = fileName (pkID k') -> k = k'.
Proof.
  intros I I' E. apply KD; [assumption|assumption|]. unfold fileName in E. apply app_inv_tail in E.
  destruct (KF k I) as (_ & _ & W & _), (KF k' I') as (_ & _ & W' & _). apply (f_equal hexdec) in E. rewrite !hexdec_enc in E by assumption. congruence.
Qed.
Lemma hexID_inj k k' : In k K -> In k' K -> hexenc (pkID k) = hexenc (pkID k') -> k = k'.
Proof.
  intros I I' E. apply KD; [assumption|assumption|].
  destruct (KF k I) as (_ & _ & W & _), (KF k' I') as (_ & _ & W' & _). apply (f_equal hexdec) in E. rewrite !hexdec_enc in E by assumption. congruence.
Qed.
Definition storedAt (k : pubKey) (w : world) (i : nat) : Prop := exists b, nth_error w i = Some b /\ inB k b.

Lemma write1_spec i fl k c u w r w' : kinds tb w -> wOk K w -> In k K -> keyMarshal k = Some c -> (forall b, fl i <> Torn b) ->
  write1 i (tb i) fl (pkID k) u c w = (r, w') ->
  kinds tb w' /\ wOk K w' /\ length w' = length w /\ (forall k0 j, In k0 K -> storedAt k0 w j -> storedAt k0 w' j)
  /\ (is_ok r = true -> (tb i = false \/ fl i = Fine) -> storedAt k w' i).
Proof.
  intros KI WO IK M NT H. unfold write1 in H. destruct (tb i) eqn:T.
  - unfold dbWriteCb in H. destruct (nth_error w i) as [[d|t]|] eqn:NI;
      [apply pair_equal_spec in H as [<- <-]; split; [exact KI|]; split; [exact WO|]; split; [reflexivity|]; split; [auto|discriminate]| |
       apply pair_equal_spec in H as [<- <-]; split; [exact KI|]; split; [exact WO|]; split; [reflexivity|]; split; [auto|discriminate]].
    destruct (dbWrite (negb (isFine (fl i))) (pkID k) u c t) as [r1 t'] eqn:DW. apply pair_equal_spec in H as [<- <-].
    assert (forall n v, In (n, v) t' -> In (n, v) t \/ n = hexenc (pkID k) /\ v = (u, b64enc c)) as TI.
    { unfold dbWrite, dbInsert in DW. intros n v I. destruct (negb (isFine (fl i))); [apply pair_equal_spec in DW as [_ <-]; left; exact I|].
      destruct (mget (hexenc (pkID k)) t); apply pair_equal_spec in DW as [_ <-]; [left; exact I|]. unfold mset in I.
      destruct I as [I|I]; [right; apply pair_equal_spec in I as [<- <-]; auto|]. left. apply In_mdel in I as [I _]. exact I. }
    assert (forall x, In x t -> In x t') as TK.
    { unfold dbWrite, dbInsert in DW. intros [n v] I. destruct (negb (isFine (fl i))); [apply pair_equal_spec in DW as [_ <-]; exact I|].
      destruct (mget (hexenc (pkID k)) t) eqn:G; apply pair_equal_spec in DW as [_ <-]; [exact I|]. right. apply mdel_In; [exact I|]. cbn [fst]. intros ->.
      exact (In_mget_some _ _ _ I G). }
    assert (fl i = Fine -> inB k (Db t')) as TN.
    { intros FI. unfold dbWrite, dbInsert in DW. rewrite FI in DW. cbn [isFine negb] in DW. destruct (mget (hexenc (pkID k)) t) as [[u0 e0]|] eqn:G; apply pair_equal_spec in DW as [_ <-].
      - apply mget_In in G. destruct (WO i _ NI _ _ _ G) as (k1 & c1 & N1 & -> & I1 & M1). assert (k = k1) as <- by (apply hexID_inj; assumption). exists u0, c1. auto.
      - exists u, c. split; [left; reflexivity|exact M]. }
    split; [intros j b J; rewrite nth_upd, NI in J; destruct (Nat.eqb_spec i j) as [<-|_]; [injection J as <-; exact T|exact (KI j b J)]|].
    split.
    { intros j b J. rewrite nth_upd, NI in J. destruct (Nat.eqb_spec i j) as [<-|_]; [|exact (WO j b J)]. injection J as <-. intros n v e I.
      apply TI in I as [I|[-> I]]; [exact (WO i _ NI n v e I)|]. apply pair_equal_spec in I as [_ ->]. exists k, c. auto. }
    split; [apply len_upd|]. split.
    + intros k0 j _ (b & B1 & B2). unfold storedAt. rewrite nth_upd. destruct (Nat.eqb_spec i j) as [<-|_]; [|exists b; split; [exact B1|exact B2]].
      rewrite NI in B1 |- *. injection B1 as <-. exists (Db t'). split; [reflexivity|]. destruct B2 as (u0 & c0 & Q1 & Q2). exists u0, c0. split; [exact (TK _ Q1)|exact Q2].
    + intros _ [X|X]; [discriminate X|]. exists (Db t'). rewrite nth_upd, Nat.eqb_refl, NI. split; [reflexivity|exact (TN X)].
  - unfold dirWriteCb in H. destruct (nth_error w i) as [[d|t]|] eqn:NI;
      [|apply pair_equal_spec in H as [<- <-]; split; [exact KI|]; split; [exact WO|]; split; [reflexivity|]; split; [auto|discriminate]|
       apply pair_equal_spec in H as [<- <-]; split; [exact KI|]; split; [exact WO|]; split; [reflexivity|]; split; [auto|discriminate]].
    destruct (dirWrite (fl i) (pkID k) c d) as [r1 d'] eqn:DW. apply pair_equal_spec in H as [<- <-].
    assert ((d' = d /\ is_ok r1 = false) \/ d' = mset (fileName (pkID k)) (Some c) d) as DC.
    { unfold dirWrite in DW. destruct (mget (fileName (pkID k)) d) as [[x|]|]; try (left; apply pair_equal_spec in DW as [<- <-]; split; reflexivity);
      (destruct (fl i) as [| |x1] eqn:FL; [right|left|elim (NT x1 eq_refl)]); apply pair_equal_spec in DW as [<- <-]; try split; reflexivity. }
    split; [intros j b J; rewrite nth_upd, NI in J; destruct (Nat.eqb_spec i j) as [<-|_]; [injection J as <-; exact T|exact (KI j b J)]|].
    split.
    { intros j b J. rewrite nth_upd, NI in J. destruct (Nat.eqb_spec i j) as [<-|_]; [|exact (WO j b J)]. injection J as <-. intros n v I.
      destruct DC as [[-> _]|DC]; [exact (WO i _ NI n v I)|]. rewrite DC in I. destruct I as [I|I]; [apply pair_equal_spec in I as [_ <-]; exists k, c; auto|].
      apply In_mdel in I as [I _]. exact (WO i _ NI n v I). }
    split; [apply len_upd|]. split.
    { intros k0 j I0 (b & B1 & B2). unfold storedAt. rewrite nth_upd. destruct (Nat.eqb_spec i j) as [<-|_]; [|exists b; split; [exact B1|exact B2]].
      rewrite NI in B1 |- *. injection B1 as <-. exists (Dir d'). split; [reflexivity|]. destruct DC as [[-> _]|DC]; [exact B2|].
      destruct B2 as (c0 & Q1 & Q2). exists c0. split; [|exact Q2]. rewrite DC. unfold mset.
      destruct (beq (fileName (pkID k0)) (fileName (pkID k))) eqn:B.
      - apply beq_spec in B. assert (k0 = k) as -> by (apply fileName_inj; assumption). left. congruence.
      - right. apply mdel_In; [exact Q1|]. cbn [fst]. apply beq_neq. exact B. }
    intros R _. destruct DC as [[_ X]|DC]; [congruence|]. exists (Dir d'). rewrite nth_upd, Nat.eqb_refl, NI. split; [reflexivity|]. exists c.
    split; [rewrite DC; left; reflexivity|exact M].
Qed.
Lemma runWrite_spec n fl k c u : In k K -> keyMarshal k = Some c -> (forall i b, fl i <> Torn b) -> forall w r w', kinds tb w -> wOk K w ->
  runWrite (setup C tb n) fl (pkID k) u c w = (r, w') ->
  kinds tb w' /\ wOk K w' /\ length w' = length w /\ (forall k0 j, In k0 K -> storedAt k0 w j -> storedAt k0 w' j)
  /\ (is_ok r = true -> forall i, (i < n)%nat -> (tb i = false \/ fl i = Fine) -> storedAt k w' i).
Proof.
  intros IK M NT. induction n as [|n IH]; intros w r w' KI WO H.
  - unfold runWrite in H. cbn [setup cWrite] in H. apply pair_equal_spec in H as [<- <-]. split; [exact KI|]. split; [exact WO|]. split; [reflexivity|].
    split; [auto|]. intros _ i L. lia.
  - rewrite runWrite_S in H. destruct (runWrite (setup C tb n) fl (pkID k) u c w) as [r1 w1] eqn:E1. destruct (IH w r1 w1 KI WO E1) as (A1 & A2 & A3 & A4 & A5).
    destruct r1 as [[]| |].
    + destruct (write1_spec n fl k c u w1 r w' A1 A2 IK M (NT n) H) as (B1 & B2 & B3 & B4 & B5).
      split; [exact B1|]. split; [exact B2|]. split; [congruence|]. split; [auto|]. intros R i L T. destruct (Nat.eq_dec i n) as [->|N]; [exact (B5 R T)|].
      apply B4; [exact IK|]. apply A5; [reflexivity|lia|exact T].
    + apply pair_equal_spec in H as [<- <-]. split; [exact A1|]. split; [exact A2|]. split; [exact A3|]. split; [exact A4|discriminate].
    + apply pair_equal_spec in H as [<- <-]. split; [exact A1|]. split; [exact A2|]. split; [exact A3|]. split; [exact A4|discriminate].
Qed.

(* ---- loading ---- *)
Definition loadKeys (now : Z) (ks : list pubKey) (p : pool) : pool := fold_left (fun p k => snd (loadKey C now k p)) ks p.
Lemma loadFiles_keys now L : forall p, (forall v, In v L -> exists k c, v = Some c /\ In k K /\ keyMarshal k = Some c) ->
  exists ks, loadFiles C now L p = (Ok tt, loadKeys now ks p) /\ incl ks K /\ (forall k c, In k K -> In (Some c) L -> keyMarshal k = Some c -> In k ks).
Proof.
  induction L as [|v L IH]; intros p H.
  - exists []. split; [reflexivity|]. split; [intros x []|intros k c _ []].
  - destruct (H v (or_introl eq_refl)) as (k & c & -> & IK & M). cbn [loadFiles]. rewrite (K_decode k c IK M).
    destruct (IH (snd (loadKey C now k p))) as (ks & E & I & F); [intros v I; apply H; right; exact I|].
    exists (k :: ks). split; [exact E|]. split; [intros x [<-|X]; [exact IK|exact (I x X)]|]. intros k1 c1 I1 [X|X] M1.
    + injection X as ->. left. pose proof (K_decode k1 c1 I1 M1) as D1. rewrite (K_decode k c1 IK M) in D1. congruence.
    + right. exact (F k1 c1 I1 X M1).
Qed.
Lemma loadRows_keys now L : forall p, (forall e, In e L -> exists k c, e = b64enc c /\ In k K /\ keyMarshal k = Some c) ->
  exists ks, loadRows C now L p = (Ok tt, loadKeys now ks p) /\ incl ks K /\ (forall k c, In k K -> In (b64enc c) L -> keyMarshal k = Some c -> In k ks).
Proof.
  induction L as [|v L IH]; intros p H.
  - exists []. split; [reflexivity|]. split; [intros x []|intros k c _ []].
  - destruct (H v (or_introl eq_refl)) as (k & c & -> & IK & M). cbn [loadRows].
    rewrite b64dec_enc by (destruct (KF k IK) as ((_ & _ & _ & _ & D) & _); exact (proj2 (D c M))). rewrite (K_decode k c IK M).
    destruct (IH (snd (loadKey C now k p))) as (ks & E & I & F); [intros v I; apply H; right; exact I|].
    exists (k :: ks). split; [exact E|]. split; [intros x [<-|X]; [exact IK|exact (I x X)]|]. intros k1 c1 I1 [X|X] M1.
    + left. apply (f_equal b64dec) in X. rewrite !b64dec_enc in X.
      * injection X as ->. pose proof (K_decode k1 c1 I1 M1) as D1. rewrite (K_decode k c1 IK M) in D1. congruence.
      * destruct (KF k1 I1) as ((_ & _ & _ & _ & D) & _); exact (proj2 (D c1 M1)).
      * destruct (KF k IK) as ((_ & _ & _ & _ & D) & _); exact (proj2 (D c M)).
    + right. exact (F k1 c1 I1 X M1).
Qed.
(* a pool with keys of K, under their identifiers *)
Definition poolK (p : pool) : Prop := forall id k, mget id (oKeys p) = Some k -> In k K /\ id = pkID k.
Definition accepts (now : Z) (p : pool) (k : pubKey) : Prop :=
  (nUsage (oGen p) = [] \/ pkUsage k = nUsage (oGen p)) /\ (now <= pkExp k)%Z /\ In (pkSigner k) (oTrust p) /\ keyVerify C k (pkSigner k) = true.
Lemma loadKey_K now k p : In k K -> poolK p -> let p' := snd (loadKey C now k p) in
  poolK p' /\ oGen p' = oGen p /\ oTrust p' = oTrust p /\ (forall id x, mget id (oKeys p) = Some x -> mget id (oKeys p') = Some x)
  /\ (accepts now p k -> mget (pkID k) (oKeys p') = Some k).
Proof.
  intros IK P. cbv zeta.
  assert (poolK p /\ oGen p = oGen p /\ oTrust p = oTrust p /\ (forall id x, mget id (oKeys p) = Some x -> mget id (oKeys p) = Some x)) as ST by auto.
  unfold loadKey. destruct (negb (beq (nUsage (oGen p)) []) && negb (beq (pkUsage k) (nUsage (oGen p)))) eqn:U.
  { cbn [snd]. destruct ST as (S1 & S2 & S3 & S4). repeat (split; [assumption|]). intros ([X|X] & _); apply andb_true_iff in U as [U1 U2];
    [rewrite X in U1; discriminate U1|rewrite X, beq_refl in U2; discriminate U2]. }
  destruct (pkExp k <? now)%Z eqn:X.
  { cbn [snd]. destruct ST as (S1 & S2 & S3 & S4). repeat (split; [assumption|]). intros (_ & Y & _). apply Z.ltb_lt in X. lia. }
  destruct (hasVerifyKey (pkSigner k) p) eqn:T; cbn [negb].
  2:{ cbn [snd]. destruct ST as (S1 & S2 & S3 & S4). repeat (split; [assumption|]). intros (_ & _ & Y & _). unfold hasVerifyKey in T.
      assert (existsb (beq (pkSigner k)) (oTrust p) = true) by (apply existsb_exists; exists (pkSigner k); split; [exact Y|apply beq_refl]). congruence. }
  destruct (keyVerify C k (pkSigner k)) eqn:V; cbn [negb].
  2:{ cbn [snd]. destruct ST as (S1 & S2 & S3 & S4). repeat (split; [assumption|]). intros (_ & _ & _ & Y). congruence. }
  destruct (mget (pkID k) (oKeys p)) as [k'|] eqn:G; cbn [snd].
  - destruct ST as (S1 & S2 & S3 & S4). repeat (split; [assumption|]). intros _. destruct (P _ _ G) as [I' E']. rewrite G. f_equal. apply KD; [exact I'|exact IK|congruence].
  - cbn [oGen oTrust oKeys]. split.
    { intros id x M. cbn [oKeys] in M. rewrite mget_mset in M. destruct (beq id (pkID k)) eqn:B; [|exact (P id x M)]. apply beq_spec in B. assert (x = k) as -> by congruence. auto. }
    split; [reflexivity|]. split; [reflexivity|]. split; [|intros _; apply mget_mset_same].
    intros id x M. rewrite mget_mset. destruct (beq id (pkID k)) eqn:B; [apply beq_spec in B; congruence|exact M].
Qed.
Lemma loadKeys_K now ks : forall p, incl ks K -> poolK p -> let p' := loadKeys now ks p in
  poolK p' /\ oGen p' = oGen p /\ oTrust p' = oTrust p /\ (forall id x, mget id (oKeys p) = Some x -> mget id (oKeys p') = Some x)
  /\ (forall k, In k ks -> accepts now p k -> mget (pkID k) (oKeys p') = Some k).
Proof.
  induction ks as [|k ks IH]; intros p I P; cbv zeta.
  - cbn [loadKeys fold_left]. split; [exact P|]. split; [reflexivity|]. split; [reflexivity|]. split; [auto|intros k []].
  - cbn [loadKeys fold_left]. destruct (loadKey_K now k p (I k (or_introl eq_refl)) P) as (A1 & A2 & A3 & A4 & A5).
    destruct (IH (snd (loadKey C now k p))) as (B1 & B2 & B3 & B4 & B5); [intros x X; apply I; right; exact X|exact A1|]. unfold loadKeys in *.
    split; [exact B1|]. split; [congruence|]. split; [congruence|]. split; [auto|].
    intros x [<-|X] AC; [apply B4, A5, AC|]. apply B5; [exact X|]. destruct AC as (Q1 & Q2 & Q3 & Q4). unfold accepts. rewrite A2, A3. auto.
Qed.
Lemma load_K o now w n : complete o -> kinds tb w -> wOk K w -> (n <= length w)%nat -> forall p, poolK p ->
  exists p', load (setup C tb n) allFine o now w p = (Ok tt, p') /\ poolK p' /\ oGen p' = oGen p /\ oTrust p' = oTrust p
  /\ (forall id x, mget id (oKeys p) = Some x -> mget id (oKeys p') = Some x)
  /\ (forall k i, (i < n)%nat -> In k K -> storedAt k w i -> accepts now p k -> mget (pkID k) (oKeys p') = Some k).
Proof.
  intros [CD CR] KI WO. induction n as [|n IH]; intros L p P.
  - exists p. split; [reflexivity|]. split; [exact P|]. split; [reflexivity|]. split; [reflexivity|]. split; [auto|]. intros k i X. lia.
  - destruct (IH ltac:(lia) p P) as (p1 & E1 & A1 & A2 & A3 & A4 & A5). rewrite load_S, E1.
    assert (exists ks, load1 C n (tb n) allFine o now w p1 = (Ok tt, loadKeys now ks p1) /\ incl ks K /\ (forall k, In k K -> storedAt k w n -> In k ks)) as (ks & E2 & I2 & F2).
    { destruct (nth_error w n) as [b|] eqn:NB; [|apply nth_error_None in NB; lia]. pose proof (KI n b NB) as KN. pose proof (WO n b NB) as WN. destruct b as [d|t].
      - destruct (loadFiles_keys now (oDir o d) p1) as (ks & E & I & F).
        { intros v X. apply (Permutation_in _ (CD d)) in X. apply in_map_iff in X as ([nm v'] & <- & X). exact (WN nm v' X). }
        exists ks. unfold load1, dirLoadCb. rewrite KN, NB. split; [exact E|]. split; [exact I|]. intros k IK (b & NB' & Q). rewrite NB in NB'. injection NB' as <-. destruct Q as (c & Q1 & Q2). apply (F k c IK); [|exact Q2].
        apply (Permutation_in _ (Permutation_sym (CD d))). exact (in_map snd d _ Q1).
      - destruct (loadRows_keys now (oRows o t) p1) as (ks & E & I & F).
        { intros e X. apply (Permutation_in _ (CR t)) in X. apply in_map_iff in X as ([nm [u e']] & <- & X). destruct (WN nm u e' X) as (k1 & c1 & _ & Q). exists k1, c1. exact Q. }
        exists ks. unfold load1, dbLoadCb. rewrite KN, NB. split; [exact E|]. split; [exact I|]. intros k IK (b & NB' & Q). rewrite NB in NB'. injection NB' as <-.
        destruct Q as (u & c & Q1 & Q2). apply (F k c IK); [|exact Q2]. apply (Permutation_in _ (Permutation_sym (CR t))). exact (in_map (fun r => snd (snd r)) t _ Q1). }
    rewrite E2. destruct (loadKeys_K now ks p1 I2 A1) as (B1 & B2 & B3 & B4 & B5). exists (loadKeys now ks p1). split; [reflexivity|]. split; [exact B1|].
    split; [congruence|]. split; [congruence|]. split; [auto|]. intros k i X IK SK AC. destruct (Nat.eq_dec i n) as [->|N].
    + apply B5; [exact (F2 k IK SK)|]. destruct AC as (Q1 & Q2 & Q3 & Q4). unfold accepts. rewrite A2, A3. auto.
    + apply B4. apply (A5 k i); [lia|exact IK|exact SK|exact AC].
Qed.
End Chain.

(* ---- fetching ---- *)
Lemma fetch_none C tb m : cFetch (setup C tb m) = None -> forall i, (i < m)%nat -> tb i = false.
Proof.
  induction m as [|m IH]; intros E i L; [lia|]. cbn [setup] in E. destruct (tb m) eqn:T; cbn [addDb addDir registerStorage cFetch] in E; [discriminate E|].
  destruct (Nat.eq_dec i m) as [->|N]; [exact T|]. apply IH; [exact E|lia].
Qed.
Lemma fetch_K C K tb fl w k n : (forall x, In x K -> fits x /\ lenN (pkID x) = 32 /\ wfb (pkID x) /\ lenN (pkSigner x) = 32 /\ lenN (pkSig x) = 64) -> distinct K ->
  wOk K w -> In k K -> forall f, cFetch (setup C tb n) = Some f ->
  (forall d, f fl w (pkID k) = Ok d -> keyMarshal k = Some d)
  /\ (forall i, (i < n)%nat -> tb i = true -> fl i = Fine -> (exists t, nth_error w i = Some (Db t)) -> storedAt k w i -> exists d, f fl w (pkID k) = Ok d).
Proof.
  intros KF KD WO IK.
  assert (forall i d, dbFetchCb i fl w (pkID k) = Ok d -> keyMarshal k = Some d) as SOUND.
  { intros i d H. unfold dbFetchCb in H. destruct (nth_error w i) as [[?|t]|] eqn:NI; try discriminate H. destruct (fl i); try discriminate H.
    unfold dbFetch in H. destruct (mget (hexenc (pkID k)) t) as [[u e]|] eqn:G; [|discriminate H]. apply mget_In in G.
    destruct (WO i _ NI _ _ _ G) as (k1 & c1 & N1 & -> & I1 & M1). assert (k = k1) as <- by (apply (hexID_inj K KF KD); assumption).
    rewrite b64dec_enc in H by (destruct (KF k IK) as ((_ & _ & _ & _ & D) & _); exact (proj2 (D c1 M1))). congruence. }
  assert (forall i, fl i = Fine -> (exists t, nth_error w i = Some (Db t)) -> storedAt k w i -> exists d, dbFetchCb i fl w (pkID k) = Ok d) as COMPL.
  { intros i FI [t NI] (b & NB & Q). rewrite NI in NB. injection NB as <-. destruct Q as (u & c & Q1 & Q2). unfold dbFetchCb. rewrite NI, FI. unfold dbFetch.
    destruct (mget (hexenc (pkID k)) t) as [[u1 e]|] eqn:G; [|elim (In_mget_some _ _ _ Q1 G)]. apply mget_In in G.
    destruct (WO i _ NI _ _ _ G) as (k1 & c1 & N1 & -> & I1 & M1). assert (k = k1) as <- by (apply (hexID_inj K KF KD); assumption).
    rewrite b64dec_enc by (destruct (KF k IK) as ((_ & _ & _ & _ & D) & _); exact (proj2 (D c1 M1))). exists c1. reflexivity. }
  induction n as [|n IH]; intros f E; [discriminate E|]. cbn [setup] in E. destruct (tb n) eqn:T; cbn [addDb addDir registerStorage cFetch] in E.
  - injection E as <-. destruct (cFetch (setup C tb n)) as [old|] eqn:CF.
    + destruct (IH old eq_refl) as [A B]. split.
      * intros d H. destruct (old fl w (pkID k)) as [d0| |] eqn:O; [injection H as <-; exact (A d0 eq_refl)|exact (SOUND n d H)|exact (SOUND n d H)].
      * intros i L TI FI ND ST. destruct (Nat.eq_dec i n) as [->|N].
        -- destruct (old fl w (pkID k)) as [d0| |]; [exists d0; reflexivity|exact (COMPL n FI ND ST)|exact (COMPL n FI ND ST)].
        -- destruct (B i ltac:(lia) TI FI ND ST) as [d D]. rewrite D. exists d. reflexivity.
    + split; [intros d H; exact (SOUND n d H)|]. intros i L TI FI ND ST. destruct (Nat.eq_dec i n) as [->|N]; [exact (COMPL n FI ND ST)|].
      rewrite (fetch_none C tb n CF i) in TI by lia. discriminate TI.
  - destruct (IH f E) as [A B]. split; [exact A|]. intros i L TI FI ND ST. apply (B i); try assumption. destruct (Nat.eq_dec i n) as [->|N]; [congruence|lia].
Qed.

(* ---- histories ---- *)
Lemma genKey_fit C g now pt k : genOk C g -> genKey C g now pt = Ok k ->
  lenN (pkID k) = 32 /\ wfb (pkID k) /\ lenN (pkSigner k) = 32 /\ lenN (pkSig k) = 64 /\ pkUsage k = nUsage g /\ nPub g = Some (pkSigner k) /\ keyVerify C k (pkSigner k) = true.
Proof.
  intros [GE GP] E. unfold genKey in E. destruct (nPriv g) as [priv|] eqn:P; [|discriminate]. destruct pt as [[x y]|]; [|discriminate]. destruct (nPub g) as [pub|] eqn:Q; [|discriminate].
  specialize (GP pub priv eq_refl eq_refl). cbv zeta in E. injection E as <-. cbn [pkID pkSigner pkSig pkUsage].
  split; [apply sha256_len|]. split; [apply sha256_wf|]. split; [rewrite GP; apply edpub_len|]. split; [apply edsign_len|]. split; [reflexivity|]. split; [reflexivity|].
  unfold keyVerify. cbn [pkID pkSig]. match goal with |- context [beq ?a ?b] => change a with b end. rewrite beq_refl. cbn [andb].
  match goal with |- edverify C pub ?a _ = _ => match goal with |- edverify C pub _ (edsign C priv ?b) = _ => change a with b end end. rewrite GP. apply edverify_sign.
Qed.
Section History.
Variables (C : Crypto) (g : generator) (K : list pubKey) (tb : nat -> bool) (n : nat).
Hypothesis GO : genOk C g.
Hypothesis KF : forall k, In k K -> fits k /\ lenN (pkID k) = 32 /\ wfb (pkID k) /\ lenN (pkSigner k) = 32 /\ lenN (pkSig k) = 64.
Hypothesis KD : distinct K.
(* a storage that tells of its failures or has none *)
Definition reliable (h : list event) (i : nat) : Prop := tb i = false \/ forall v, In v h -> vFaults v i = Fine.
Definition everywhere (R : nat -> Prop) (k : pubKey) (w : world) : Prop := forall i, (i < n)%nat -> R i -> storedAt k w i.
Definition inv (R : nat -> Prop) (p : pool) (w : world) : Prop :=
  oGen p = g /\ kinds tb w /\ wOk K w /\ length w = n /\ forall k, oCurrent p = Some k -> In k K /\ everywhere R k w.
Lemma currentS_inv (R : nat -> Prop) v p w r p' w' : (forall i, R i -> tb i = false \/ vFaults v i = Fine) -> (forall i b, vFaults v i <> Torn b) ->
  incl (gens C g [v]) K -> inv R p w -> currentS C (setup C tb n) (vFaults v) (vNow v) (vPoint v) p w = (r, p', w') ->
  inv R p' w' /\ (forall k, In k K -> everywhere R k w -> everywhere R k w') /\ (forall k prev, r = Ok (k, prev) -> In k K /\ everywhere R k w').
Proof.
  intros RF NT GI (I1 & I2 & I3 & I4 & I5) H. unfold currentS in H. unfold gens in GI. cbn [flat_map] in GI. rewrite app_nil_r in GI.
  set (fr := match oCurrent p with None => true | Some k => (pkExp k <? vNow v - Z.quot (nExpire (oGen p)) 2)%Z end) in *.
  destruct (generated C (vNow v) (vPoint v) p) as [k|] eqn:G.
  - destruct (storeKey (setup C tb n) (vFaults v) k w) as [x w1] eqn:S. apply pair_equal_spec in H as [H <-].
    unfold generated in G. fold fr in G. destruct fr eqn:FR; [|discriminate G]. rewrite I1 in G. destruct (genKey C g (vNow v) (vPoint v)) as [k1| |] eqn:GK; try discriminate G. injection G as ->.
    assert (In k K) as IK by (apply GI; left; reflexivity).
    assert (kinds tb w1 /\ wOk K w1 /\ length w1 = length w /\ (forall k0 j, In k0 K -> storedAt k0 w j -> storedAt k0 w1 j)
            /\ (is_ok x = true -> keyMarshal k <> None -> everywhere R k w1)) as (A1 & A2 & A3 & A4 & A5).
    { unfold storeKey in S. destruct (keyMarshal k) as [c|] eqn:M.
      - destruct (runWrite_spec C K tb KF KD n (vFaults v) k c (pkUsage k) IK M NT w x w1 I2 I3 S) as (B1 & B2 & B3 & B4 & B5).
        split; [exact B1|]. split; [exact B2|]. split; [exact B3|]. split; [exact B4|]. intros X _ i L RI. exact (B5 X i L (RF i RI)).
      - apply pair_equal_spec in S as [<- <-]. split; [exact I2|]. split; [exact I3|]. split; [reflexivity|]. split; [auto|discriminate]. }
    unfold current in H. cbn [eNow ePoint] in H. fold fr in H. rewrite FR, I1, GK in H.
    assert (nPriv g <> None) as NP by (unfold genKey in GK; destruct (nPriv g); [discriminate|discriminate GK]).
    destruct (nPriv g); [|elim NP; reflexivity]. unfold writeKey in H. cbn [eWrite] in H.
    assert (forall k0, In k0 K -> everywhere R k0 w -> everywhere R k0 w1) as KEEP by (intros k0 I0 E0 i L RI; apply A4; [exact I0|exact (E0 i L RI)]).
    destruct (keyMarshal k) as [c|] eqn:M.
    + destruct (is_ok x) eqn:OX.
      * apply pair_equal_spec in H as [<- <-]. assert (everywhere R k w1) as EV by (apply A5; [reflexivity|discriminate]).
        split; [|split; [exact KEEP|intros k0 prev X; assert (k0 = k) as -> by congruence; split; [exact IK|exact EV]]].
        split; [reflexivity|]. split; [exact A1|]. split; [exact A2|]. split; [congruence|]. cbn [oCurrent]. intros k0 X. assert (k0 = k) as -> by congruence. split; [exact IK|exact EV].
      * apply pair_equal_spec in H as [<- <-]. split; [|split; [exact KEEP|discriminate]]. split; [exact I1|]. split; [exact A1|]. split; [exact A2|]. split; [congruence|].
        intros k0 X. destruct (I5 k0 X). split; [assumption|apply KEEP; assumption].
    + apply pair_equal_spec in H as [<- <-]. split; [|split; [exact KEEP|discriminate]]. split; [exact I1|]. split; [exact A1|]. split; [exact A2|]. split; [congruence|].
      intros k0 X. destruct (I5 k0 X). split; [assumption|apply KEEP; assumption].
  - apply pair_equal_spec in H as [H <-]. unfold generated in G. fold fr in G. unfold current in H. cbn [eNow ePoint] in H. fold fr in H. rewrite I1 in H, G.
    assert (inv R p w) as II by (split; [exact I1|]; split; [exact I2|]; split; [exact I3|]; split; [exact I4|exact I5]).
    destruct (nPriv g); [|apply pair_equal_spec in H as [<- <-]; split; [exact II|split; [auto|discriminate]]].
    destruct fr.
    + destruct (genKey C g (vNow v) (vPoint v)); try discriminate G; apply pair_equal_spec in H as [<- <-]; (split; [exact II|split; [auto|discriminate]]).
    + destruct (oCurrent p) as [k0|] eqn:OC; apply pair_equal_spec in H as [<- <-]; (split; [exact II|split; [auto|]]); [|discriminate].
      intros k1 prev X. apply (f_equal (fun y => match y with Ok (z, _) => z | _ => k0 end)) in X. subst k1. exact (I5 k0 eq_refl).
Qed.
Lemma runs_inv (R : nat -> Prop) h : (forall i, R i -> reliable h i) -> noTorn h -> incl (gens C g h) K -> forall p w ks p' w', inv R p w ->
  runs C (setup C tb n) h p w = (ks, p', w') -> inv R p' w' /\ (forall k, In k K -> everywhere R k w -> everywhere R k w') /\ forall k, In k ks -> In k K /\ everywhere R k w'.
Proof.
  induction h as [|v h IH]; intros RH NT GI p w ks p' w' II H; cbn [runs] in H.
  - apply pair_equal_spec in H as [H <-]. apply pair_equal_spec in H as [<- <-]. split; [exact II|]. split; [auto|intros k []].
  - assert (inv R (start v p) w) as IS.
    { unfold start. destruct (vRestart v); [|exact II]. destruct II as (Q1 & Q2 & Q3 & Q4 & _). split; [exact Q1|]. split; [exact Q2|]. split; [exact Q3|]. split; [exact Q4|]. discriminate. }
    destruct (currentS C (setup C tb n) (vFaults v) (vNow v) (vPoint v) (start v p) w) as [[r p1] w1] eqn:CS. destruct (runs C (setup C tb n) h p1 w1) as [[ks1 p2] w2] eqn:RS.
    apply pair_equal_spec in H as [H <-]. apply pair_equal_spec in H as [<- <-].
    destruct (currentS_inv R v (start v p) w r p1 w1) as (A1 & A2 & A3);
      [intros i RI; destruct (RH i RI) as [X|X]; [left; exact X|right; apply X; left; reflexivity]|intros i b; apply NT; left; reflexivity|
       intros x X; apply GI; unfold gens in *; cbn [flat_map] in *; rewrite app_nil_r in X; apply in_or_app; left; exact X|exact IS|exact CS|].
    destruct (IH) with (p := p1) (w := w1) (ks := ks1) (p' := p2) (w' := w2) as (B1 & B2 & B3);
      [intros i RI; destruct (RH i RI) as [X|X]; [left; exact X|right; intros v0 V; apply X; right; exact V]|intros v0 i b V; apply NT; right; exact V|
       intros x X; apply GI; unfold gens in *; cbn [flat_map]; apply in_or_app; right; exact X|exact A1|exact RS|].
    split; [exact B1|]. split; [auto|]. intros k X. assert ((exists prev, r = Ok (k, prev)) \/ In k ks1) as [[prev Y]|Y].
    { destruct r as [[k0 prev]| |]; [destruct X as [<-|X]; [left; exists prev; reflexivity|right; exact X]|right; exact X|right; exact X]. }
    + destruct (A3 k prev Y) as [I0 E0]. split; [exact I0|apply B2; assumption].
    + exact (B3 k Y).
Qed.
End History.

Lemma gens_fit C g h k : genOk C g -> In k (gens C g h) -> lenN (pkID k) = 32 /\ wfb (pkID k) /\ lenN (pkSigner k) = 32 /\ lenN (pkSig k) = 64
  /\ pkUsage k = nUsage g /\ nPub g = Some (pkSigner k) /\ keyVerify C k (pkSigner k) = true.
Proof.
  intros GO I. unfold gens in I. apply in_flat_map in I as (v & _ & I). destruct (genKey C g (vNow v) (vPoint v)) as [k1| |] eqn:G; [|elim I|elim I].
  destruct I as [<-|[]]. exact (genKey_fit C g _ _ _ GO G).
Qed.
Lemma history_inv C g w0 h ks p w : genOk C g -> fresh w0 -> noTorn h -> distinct (gens C g h) -> (forall k, In k (gens C g h) -> fits k) ->
  runs C (callbacksOf C w0) h (newPool g) w0 = (ks, p, w) ->
  kinds (tables w0) w /\ wOk (gens C g h) w /\ length w = length w0
  /\ forall k i, In k ks -> (i < length w0)%nat -> reliable (tables w0) h i -> In k (gens C g h) /\ storedAt k w i.
Proof.
  intros GO FW NT D F H.
  assert (forall k, In k (gens C g h) -> fits k /\ lenN (pkID k) = 32 /\ wfb (pkID k) /\ lenN (pkSigner k) = 32 /\ lenN (pkSig k) = 64) as KF.
  { intros k I. split; [exact (F k I)|]. destruct (gens_fit C g h k GO I) as (A & B & E & G & _). auto. }
  destruct (runs_inv C g (gens C g h) (tables w0) (length w0) KF D (reliable (tables w0) h) h (fun i x => x) NT (incl_refl _) (newPool g) w0 ks p w) as ((_ & A1 & A2 & A3 & _) & _ & A4).
  - split; [reflexivity|]. split; [intros i b E; unfold tables; rewrite E; destruct b; reflexivity|]. split; [|split; [reflexivity|discriminate]].
    intros i b E. destruct (FW i b E) as [->| ->]; [intros n v []|intros n u e []].
  - exact H.
  - split; [exact A1|]. split; [exact A2|]. split; [exact A3|]. intros k i I L RI. destruct (A4 k I) as [X Y]. split; [exact X|exact (Y i L RI)].
Qed.

(* C181.  Every key that Current returned is in the pool after a restart and Load, as long as it is not expired, for any number of storages,
   any failures and restarts.  Missing: key files that are written in part, foreign files, and tables that refuse a key. *)
Theorem C181_partial : forall C g w0 h ks p w, genOk C g -> fresh w0 -> noTorn h -> distinct (gens C g h) -> (forall k, In k (gens C g h) -> fits k) ->
  runs C (callbacksOf C w0) h (newPool g) w0 = (ks, p, w) -> (exists i, (i < length w0)%nat /\ reliable (tables w0) h i) ->
  forall k o now g2 trust, In k ks -> complete o -> nUsage g2 = [] \/ nUsage g2 = nUsage g -> In (pkSigner k) trust -> (now <= pkExp k)%Z ->
  exists p2, load (callbacksOf C w0) allFine o now w (trusting g2 trust) = (Ok tt, p2) /\ mget (pkID k) (oKeys p2) = Some k
    /\ ((now < pkExp k)%Z -> lookup_ now (pkID k) p2 = Ok k).
Proof.
  intros C g w0 h ks p w GO FW NT D F H (i & L & RI) k o now g2 trust IK CO U TR EX.
  destruct (history_inv C g w0 h ks p w GO FW NT D F H) as (A1 & A2 & A3 & A4). destruct (A4 k i IK L RI) as [GK ST].
  assert (forall k, In k (gens C g h) -> fits k /\ lenN (pkID k) = 32 /\ wfb (pkID k) /\ lenN (pkSigner k) = 32 /\ lenN (pkSig k) = 64) as KF.
  { intros k1 I. split; [exact (F k1 I)|]. destruct (gens_fit C g h k1 GO I) as (A & B & E & G & _). auto. }
  destruct (load_K C (gens C g h) (tables w0) KF D o now w (length w0) CO A1 A2 ltac:(lia) (trusting g2 trust)) as (p2 & E2 & _ & _ & _ & _ & B); [discriminate|].
  exists p2. split; [exact E2|]. assert (mget (pkID k) (oKeys p2) = Some k) as M.
  { apply (B k i L GK ST). destruct (gens_fit C g h k GO GK) as (_ & _ & _ & _ & Q1 & _ & Q2). split; [cbn [trusting oGen]; destruct U as [U|U]; [left; exact U|right; congruence]|].
    split; [exact EX|]. split; [exact TR|exact Q2]. }
  split; [exact M|]. intros LT. unfold lookup_. rewrite M. rewrite (proj2 (Z.ltb_lt _ _) LT). reflexivity.
Qed.
(* C182.  A service that has not loaded any keys finds each of them by its identifier in a key table that worked, whatever fails in the others. *)
Theorem C182_partial : forall C g w0 h ks p w, genOk C g -> fresh w0 -> noTorn h -> distinct (gens C g h) -> (forall k, In k (gens C g h) -> fits k) ->
  runs C (callbacksOf C w0) h (newPool g) w0 = (ks, p, w) ->
  forall k j fl now g2 trust, In k ks -> tables w0 j = true -> (forall v, In v h -> vFaults v j = Fine) -> fl j = Fine ->
  nUsage g2 = [] \/ nUsage g2 = nUsage g -> In (pkSigner k) trust -> (now <= pkExp k)%Z ->
  exists p2, lookupS C (callbacksOf C w0) fl now w (pkID k) (trusting g2 trust) = (Ok k, p2) /\ mget (pkID k) (oKeys p2) = Some k.
Proof.
  intros C g w0 h ks p w GO FW NT D F H k j fl now g2 trust IK TJ VJ FJ U TR EX.
  destruct (history_inv C g w0 h ks p w GO FW NT D F H) as (A1 & A2 & A3 & A4).
  assert (j < length w0)%nat as L. { apply nth_error_Some. unfold tables in TJ. destruct (nth_error w0 j); [discriminate|discriminate TJ]. }
  destruct (A4 k j IK L (or_intror VJ)) as [GK ST].
  assert (forall k, In k (gens C g h) -> fits k /\ lenN (pkID k) = 32 /\ wfb (pkID k) /\ lenN (pkSigner k) = 32 /\ lenN (pkSig k) = 64) as KF.
  { intros k1 I. split; [exact (F k1 I)|]. destruct (gens_fit C g h k1 GO I) as (A & B & E & G & _). auto. }
  unfold lookupS. destruct (cFetch (callbacksOf C w0)) as [f|] eqn:CF; [|rewrite (fetch_none C (tables w0) _ CF j L) in TJ; discriminate TJ].
  destruct (fetch_K C (gens C g h) (tables w0) fl w k (length w0) KF D A2 GK f CF) as [SO CM].
  destruct (CM j L TJ FJ) as (d & E); [|exact ST|].
  { destruct (nth_error w j) as [b|] eqn:NB; [|apply nth_error_None in NB; lia]. pose proof (A1 j b NB) as X. destruct b as [x|t]; [congruence|exists t; reflexivity]. }
  pose proof (K_decode (gens C g h) KF k d GK (SO d E)) as DK.
  unfold lookupKey, lookup_. cbn [eNow eFetch trusting oKeys mget]. rewrite E, DK.
  destruct (loadKey_K C (gens C g h) KF D now k (trusting g2 trust) GK) as (_ & _ & _ & _ & AC); [discriminate|].
  assert (mget (pkID k) (oKeys (snd (loadKey C now k (trusting g2 trust)))) = Some k) as M.
  { apply AC. destruct (gens_fit C g h k GO GK) as (_ & _ & _ & _ & Q1 & _ & Q2). split; [cbn [trusting oGen]; destruct U as [U|U]; [left; exact U|right; congruence]|].
    split; [exact EX|]. split; [exact TR|exact Q2]. }
  destruct (loadKey C now k (trusting g2 trust)) as [r p2] eqn:LK. cbn [snd] in M. exists p2.
  destruct (loadKey_spec C now k _ r p2 LK) as (_ & _ & [[X _]|[-> X]] & _); [rewrite X in M; discriminate M|]. rewrite beq_refl. split; [reflexivity|exact M].
Qed.

(* C183.  Whatever the storages hold, Load puts only keys into the pool that a trusted signer signed, of the right usage and not expired. *)
Lemma loadRows_ok C g tr ts now rows : forall p, poolOk C g tr ts p -> In now ts -> poolOk C g tr ts (snd (loadRows C now rows p)).
Proof.
  induction rows as [|e rows IH]; intros p O I; cbn [loadRows]; [exact O|]. destruct (b64dec e) as [d|]; [|exact O].
  destruct (keyUnmarshal d); try exact O. apply IH; [apply loadKey_ok; assumption|exact I].
Qed.
Lemma load_sound C g tr ts tb n fl o now w : In now ts -> forall p, poolOk C g tr ts p -> poolOk C g tr ts (snd (load (setup C tb n) fl o now w p)).
Proof.
  intros I. induction n as [|n IH]; intros p O; [exact O|]. rewrite load_S. specialize (IH p O). destruct (load (setup C tb n) fl o now w p) as [[u| |] p1]; try exact IH.
  cbn [snd] in IH. unfold load1. destruct (tb n).
  - unfold dbLoadCb. destruct (nth_error w n) as [[d|t]|]; try exact IH. destruct (fl n); try exact IH. apply loadRows_ok; assumption.
  - unfold dirLoadCb. destruct (nth_error w n) as [[d|t]|]; try exact IH. destruct (fl n); try exact IH. apply loadFiles_ok; assumption.
Qed.
Theorem C183_sound : forall C g trust w tb n fl o now id k,
  mget id (oKeys (snd (load (setup C tb n) fl o now w (trusting g trust)))) = Some k ->
  id = pkID k /\ pkID k = calcKeyID C k /\ edverify C (pkSigner k) (pkID k) (pkSig k) = true /\ (In (pkSigner k) trust \/ nPub g = Some (pkSigner k))
  /\ (nUsage g = [] \/ pkUsage k = nUsage g) /\ (now <= pkExp k)%Z.
Proof.
  intros C g trust w tb n fl o now id k M.
  destruct (load_sound C g trust [now] tb n fl o now w (or_introl eq_refl) (trusting g trust)) as (_ & _ & D).
  - split; [reflexivity|]. split; [auto|]. discriminate.
  - destruct (D id k M) as [E [S1 S2 S3 S4 (t & [<-|[]] & S5)]]. split; [exact E|]. split; [exact S1|]. split; [exact S2|]. split; [exact S3|]. split; [exact S4|exact S5].
Qed.

(* Load reports success only if each storage could be read. *)
Theorem C183_reported : forall C w tb n fl o now p p', load (setup C tb n) fl o now w p = (Ok tt, p') -> forall i, (i < n)%nat ->
  fl i = Fine /\ exists b, nth_error w i = Some b /\ match b with Db _ => tb i = true | Dir _ => tb i = false end.
Proof.
  intros C w tb n fl o now p. induction n as [|n IH]; intros p' E i L; [lia|]. rewrite load_S in E.
  destruct (load (setup C tb n) fl o now w p) as [[[]| |] p1]; try discriminate E.
  destruct (Nat.eq_dec i n) as [->|D]; [|apply (IH p1 eq_refl); lia]. unfold load1 in E. destruct (tb n).
  - unfold dbLoadCb in E. destruct (nth_error w n) as [[d|t]|]; try discriminate E. destruct (fl n); try discriminate E.
    split; [reflexivity|]. exists (Db t). split; reflexivity.
  - unfold dirLoadCb in E. destruct (nth_error w n) as [[d|t]|]; try discriminate E. destruct (fl n); try discriminate E.
    split; [reflexivity|]. exists (Dir d). split; reflexivity.
Qed.

(* ---- cases and refutations ---- *)
Definition asIs : orders := mkOrd (fun d => map snd d) (fun t => map (fun r => snd (snd r)) t).
Lemma asIs_complete : complete asIs.
Proof. split; intros x; apply Permutation_refl. Qed.
Definition refuse (i : nat) : faults := fun j => if Nat.eqb i j then Refuse else Fine.
Definition tear (i : nat) (b : bytes) : faults := fun j => if Nat.eqb i j then Torn b else Fine.
Definition exSigner : bytes := edpub toy (str "signer").
(* two directories and a table; the table refuses the second key, the first directory the third *)
Definition exHist : list event := [mkEvent 1000 (Some (7, 9)) allFine false; mkEvent 1030 (Some (7, 9)) (refuse 2) true; mkEvent 1050 (Some (7, 9)) (refuse 0) true].
Definition exStores : world := [Dir []; Dir []; Db []].
Definition exRun : list pubKey * pool * world := Eval vm_compute in runs toy (callbacksOf toy exStores) exHist (newPool exGen) exStores.
Example C181_case : map (fun k => pkExp k) (fst (fst exRun)) = [1100%Z; 1130%Z] /\ reliable (tables exStores) exHist 0
  /\ match load (callbacksOf toy exStores) allFine asIs 1060 (snd exRun) (trusting exUser [exSigner]) with (Ok _, p) => length (oKeys p) = 2%nat | _ => False end.
Proof. split; [reflexivity|]. split; [left; reflexivity|]. vm_compute. reflexivity. Qed.
Definition exGens : list pubKey := Eval vm_compute in gens toy exGen exHist.
Example C183_reported_case : exists p', load (callbacksOf toy exStores) allFine asIs 1060 (snd exRun) (trusting exUser [exSigner]) = (Ok tt, p')
  /\ exists e, fst (load (callbacksOf toy exStores) (refuse 2) asIs 1060 (snd exRun) (trusting exUser [exSigner])) = Err e.
Proof.
  destruct (load (callbacksOf toy exStores) allFine asIs 1060 (snd exRun) (trusting exUser [exSigner])) as [r p'] eqn:E.
  assert (fst (load (callbacksOf toy exStores) allFine asIs 1060 (snd exRun) (trusting exUser [exSigner])) = Ok tt) as R by (vm_compute; reflexivity).
  rewrite E in R. cbn [fst] in R. subst r. exists p'. split; [reflexivity|]. exists "query"%string. vm_compute. reflexivity.
Qed.
Example C181_hypotheses : fresh exStores /\ noTorn exHist /\ distinct (gens toy exGen exHist) /\ forall k, In k (gens toy exGen exHist) -> fits k.
Proof.
  assert (gens toy exGen exHist = exGens) as -> by (vm_compute; reflexivity).
  split; [intros [|[|[|[|i]]]] b E; try discriminate E; injection E as <-; auto|].
  split; [intros v i b I; cbn [exHist In] in I; destruct I as [<-|[<-|[<-|[]]]]; cbn [vFaults]; unfold refuse, allFine; try discriminate; destruct (Nat.eqb _ i); discriminate|].
  split.
  - intros a b A B. cbn [exGens In] in A, B. destruct A as [<-|[<-|[<-|[]]]], B as [<-|[<-|[<-|[]]]]; intros E; try reflexivity; exfalso; vm_compute in E; discriminate E.
  - assert (forallb (fun k => ((-1000 <? pkExp k) && (pkExp k <? 10000))%Z && (lenN (pkUsage k) <? 1000) && (lenN (bigBytes (pkX k)) <? 1000) && (lenN (bigBytes (pkY k)) <? 1000)
        && match keyMarshal k with Some d => (lenN d <? 1000) && forallb (fun x => x <? 256) d | None => true end) exGens = true) as F by (vm_compute; reflexivity).
    intros k I. rewrite forallb_forall in F. specialize (F k I). rewrite !andb_true_iff in F. destruct F as [[[[[F1 F2] F3] F4] F5] F6].
    unfold fits. change (2 ^ 31) with 2147483648. change (2 ^ 63)%Z with 9223372036854775808%Z. split; [lia|]. split; [lia|]. split; [lia|]. split; [lia|].
    intros d E. rewrite E in F6. apply andb_true_iff in F6 as [F6 F7]. split; [lia|]. unfold wfb. rewrite forallb_forall in F7. apply Forall_forall. intros x X. specialize (F7 x X). lia.
Qed.
Definition exKs : list pubKey := fst (fst exRun).
Example C182_case : map (fun k => is_ok (fst (lookupS toy (callbacksOf toy exStores) (refuse 0) 1060 (snd exRun) (pkID k) (trusting exUser [exSigner])))) exKs = [true; false].
Proof. vm_compute. reflexivity. Qed.
(* A key file written in part before an error: after a restart Load fails and the key issued before is not found. *)
Definition tornHist : list event := [mkEvent 1000 (Some (7, 9)) allFine false; mkEvent 1030 (Some (7, 9)) (tear 0 [48]) true].
Definition tornRun : list pubKey * pool * world := Eval vm_compute in runs toy (callbacksOf toy [Dir []]) tornHist (newPool exGen) [Dir []].
Theorem C181_torn_refuted : exists C g w0 h ks p w k o now trust, genOk C g /\ fresh w0 /\ runs C (callbacksOf C w0) h (newPool g) w0 = (ks, p, w)
  /\ (exists i, (i < length w0)%nat /\ reliable (tables w0) h i) /\ In k ks /\ complete o /\ In (pkSigner k) trust /\ (now < pkExp k)%Z
  /\ let (r, p2) := load (callbacksOf C w0) allFine o now w (trusting exUser trust) in is_ok r = false /\ mget (pkID k) (oKeys p2) = None.
Proof.
  exists toy, exGen, [Dir []], tornHist, (fst (fst tornRun)), (snd (fst tornRun)), (snd tornRun), (exKey 1000), asIs, 1060%Z, [exSigner].
  split; [split; [cbn; lia|intros pub priv A B; unfold exGen in A, B; cbn [nPub nPriv] in A, B; congruence]|].
  split; [intros [|[|i]] b E; [injection E as <-; left; reflexivity|discriminate E|discriminate E]|].
  split; [vm_compute; reflexivity|]. split; [exists 0%nat; split; [cbn; lia|left; reflexivity]|]. split; [vm_compute; left; reflexivity|]. split; [apply asIs_complete|].
  split; [vm_compute; left; reflexivity|]. split; [vm_compute; reflexivity|]. vm_compute. split; reflexivity.
Qed.
(* A foreign file in the directory has the same effect. *)
Definition readme : world := [Dir [(str "README", Some (str "keys"))]].
Definition readmeRun : list pubKey * pool * world := Eval vm_compute in runs toy (callbacksOf toy readme) [mkEvent 1000 (Some (7, 9)) allFine false] (newPool exGen) readme.
Theorem C181_foreign_refuted : exists C g w0 h ks p w k o now trust, genOk C g /\ noTorn h /\ runs C (callbacksOf C w0) h (newPool g) w0 = (ks, p, w)
  /\ (exists i, (i < length w0)%nat /\ reliable (tables w0) h i) /\ In k ks /\ complete o /\ In (pkSigner k) trust /\ (now < pkExp k)%Z
  /\ let (r, p2) := load (callbacksOf C w0) allFine o now w (trusting exUser trust) in is_ok r = false /\ mget (pkID k) (oKeys p2) = None.
Proof.
  exists toy, exGen, readme, [mkEvent 1000 (Some (7, 9)) allFine false], (fst (fst readmeRun)), (snd (fst readmeRun)), (snd readmeRun), (exKey 1000),
    (mkOrd (fun d => rev (map snd d)) (fun t => map (fun r => snd (snd r)) t)), 1060%Z, [exSigner].
  split; [split; [cbn; lia|intros pub priv A B; unfold exGen in A, B; cbn [nPub nPriv] in A, B; congruence]|].
  split; [intros v i b [<-|[]]; discriminate|].
  split; [vm_compute; reflexivity|]. split; [exists 0%nat; split; [cbn; lia|left; reflexivity]|]. split; [vm_compute; left; reflexivity|].
  split; [split; intros x; [apply Permutation_sym, Permutation_rev|apply Permutation_refl]|].
  split; [vm_compute; left; reflexivity|]. split; [vm_compute; reflexivity|]. vm_compute. split; reflexivity.
Qed.
(* A table that refuses the key: Current returns it all the same, and it is lost. *)
Definition downRun : list pubKey * pool * world := Eval vm_compute in runs toy (callbacksOf toy [Db []]) [mkEvent 1000 (Some (7, 9)) (refuse 0) false] (newPool exGen) [Db []].
Theorem C181_table_refuted : exists C g w0 h ks p w k o now trust, genOk C g /\ fresh w0 /\ noTorn h /\ runs C (callbacksOf C w0) h (newPool g) w0 = (ks, p, w)
  /\ w0 <> [] /\ In k ks /\ complete o /\ In (pkSigner k) trust /\ (now < pkExp k)%Z
  /\ let (r, p2) := load (callbacksOf C w0) allFine o now w (trusting exUser trust) in is_ok r = true /\ mget (pkID k) (oKeys p2) = None.
Proof.
  exists toy, exGen, [Db []], [mkEvent 1000 (Some (7, 9)) (refuse 0) false], (fst (fst downRun)), (snd (fst downRun)), (snd downRun), (exKey 1000), asIs, 1060%Z, [exSigner].
  split; [split; [cbn; lia|intros pub priv A B; unfold exGen in A, B; cbn [nPub nPriv] in A, B; congruence]|].
  split; [intros [|[|i]] b E; [injection E as <-; right; reflexivity|discriminate E|discriminate E]|].
  split; [intros v i b [<-|[]]; cbn [vFaults]; unfold refuse; destruct (Nat.eqb 0 i); discriminate|].
  split; [vm_compute; reflexivity|]. split; [discriminate|]. split; [vm_compute; left; reflexivity|]. split; [apply asIs_complete|].
  split; [vm_compute; left; reflexivity|]. split; [vm_compute; reflexivity|]. vm_compute. split; reflexivity.
Qed.
(* A row without a key in the first table hides the key in the second. *)
Definition badRow : world := [Db [(hexenc (pkID (exKey 1000)), ([], b64enc [48]))]; Db []].
Definition badRun : list pubKey * pool * world := Eval vm_compute in runs toy (callbacksOf toy badRow) [mkEvent 1000 (Some (7, 9)) allFine false] (newPool exGen) badRow.
Theorem C182_refuted : exists C g w0 h ks p w k j now trust, genOk C g /\ noTorn h /\ runs C (callbacksOf C w0) h (newPool g) w0 = (ks, p, w)
  /\ In k ks /\ tables w0 j = true /\ (exists t d, nth_error w j = Some (Db t) /\ dbFetch (pkID k) t = Ok d /\ keyUnmarshal d = Ok k)
  /\ In (pkSigner k) trust /\ (now < pkExp k)%Z /\ is_ok (fst (lookupS C (callbacksOf C w0) allFine now w (pkID k) (trusting exUser trust))) = false.
Proof.
  exists toy, exGen, badRow, [mkEvent 1000 (Some (7, 9)) allFine false], (fst (fst badRun)), (snd (fst badRun)), (snd badRun), (exKey 1000), 1%nat, 1060%Z, [exSigner].
  split; [split; [cbn; lia|intros pub priv A B; unfold exGen in A, B; cbn [nPub nPriv] in A, B; congruence]|].
  split; [intros v i b [<-|[]]; discriminate|]. split; [vm_compute; reflexivity|]. split; [vm_compute; left; reflexivity|]. split; [reflexivity|].
  split; [exists (match nth_error (snd badRun) 1 with Some (Db t) => t | _ => [] end), (match keyMarshal (exKey 1000) with Some d => d | None => [] end);
          split; [reflexivity|]; split; vm_compute; reflexivity|].
  split; [vm_compute; left; reflexivity|]. split; vm_compute; reflexivity.
Qed.

Print Assumptions C181_partial.
Print Assumptions C181_torn_refuted.
Print Assumptions C181_foreign_refuted.
Print Assumptions C181_table_refuted.
Print Assumptions C182_partial.
Print Assumptions C182_refuted.
Print Assumptions C183_sound.
Print Assumptions C183_reported.
