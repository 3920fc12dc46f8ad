(* C197: the local copy of a hash chain follows the key server. *)
From Coq Require Import String.
From Verif Require Import Base Base64Model IdentityModel IdentityProofs CryptoModel StoreModel SqlModel SqlProofs KeyDBModel KeyDBProofs HashChainModel HashChainProofs CopyModel.
Local Open Scope N_scope.

(* ---- the repeated function is the one of HashChainModel ---- *)
Lemma storeDB_same U ok domain hcPos es : (forall p, ok p = true) -> forall i d, storeDB U ok domain i hcPos es d = storeEntries U domain i hcPos es d.
Proof.
  intros K. induction es as [|e es IH]; intros i d; cbn [storeDB storeEntries]; [reflexivity|]. destruct (hcPos <? i); [reflexivity|]. destruct e; [|reflexivity]. rewrite K.
  destruct (addChainEntry U domain i _ d); [apply IH|reflexivity|reflexivity].
Qed.
Theorem C197_same : forall U ok domain last fetch d, (forall p, ok p = true) -> syncDB U ok domain last fetch d = syncHashChain U domain last fetch d.
Proof.
  intros U ok domain last fetch d K. unfold syncDB, syncHashChain. destruct last as [l| |]; try reflexivity. destruct (lrEntry l); [|reflexivity]. destruct (lrPos l) as [p|]; [|reflexivity].
  assert (G : forall s, match fetch s p with
    | Ok r => match crEntries r, crFirst r with Some es, Some first => storeDB U ok domain first p es d | Some _, None => (Panic, d) | None, _ => (Err "cryptengine: fetch hash chain entries reply has the wrong type"%string, d) end
    | Err e => (Err e, d) | Panic => (Panic, d) end = match fetch s p with Err e => (Err e, d) | Panic => (Panic, d)
    | Ok r => match crEntries r with None => (Err "cryptengine: fetch hash chain entries reply has the wrong type"%string, d) | Some es => match crFirst r with None => (Panic, d) | Some first => storeEntries U domain first p es d end end end).
  { intros s. destruct (fetch s p) as [r| |]; try reflexivity. destruct (crEntries r); [|reflexivity]. destruct (crFirst r); [apply storeDB_same, K|reflexivity]. }
  destruct (lastChainPos U domain d) as [q|]; [destruct (p <=? q); [reflexivity|]|]; apply G.
Qed.

(* ---- what the database holds of a chain ---- *)
Definition hasRow (m : bytes) (p : N) (e : bytes) (d : keydb) : Prop := exists i, In (i, mkHR m p e) (kChain d).
(* the first [n] entries of [ch], each at its position, and nothing else *)
Definition follows (ch : list bytes) (m : bytes) (n : N) (d : keydb) : Prop :=
  n <= lenN ch /\ forall p e, hasRow m p e d <-> p < n /\ nth_error ch (N.to_nat p) = Some e.
Lemma nth_lenN {A} (l : list A) p : p < lenN l -> exists e, nth_error l (N.to_nat p) = Some e.
Proof. intros L. destruct (nth_error l (N.to_nat p)) as [e|] eqn:E; [eauto|]. apply nth_error_None in E. unfold lenN in L. lia. Qed.
Lemma lenN_nth {A} (l : list A) p e : nth_error l (N.to_nat p) = Some e -> p < lenN l.
Proof. intros E. assert (N.to_nat p < length l)%nat by (apply nth_error_Some; rewrite E; discriminate). unfold lenN. lia. Qed.

Lemma hrow_eta r : r = mkHR (hrDomain r) (hrPos r) (hrEntry r). Proof. destruct r. reflexivity. Qed.
Lemma follows_last U ch domain n d : follows ch (mapDomain U domain) n d -> lastChainPos U domain d = if n =? 0 then None else Some (n - 1).
Proof.
  intros [L F]. unfold lastChainPos. destruct (tmax _ hrPos (kChain d)) as [[i r]|] eqn:T.
  - apply tmax_some in T as (I & P & M). cbn [snd] in *. apply beq_spec in P.
    assert (H : hasRow (mapDomain U domain) (hrPos r) (hrEntry r) d) by (exists i; rewrite <- P, <- hrow_eta; exact I).
    apply F in H as [H _]. destruct (N.eqb_spec n 0); [lia|]. f_equal.
    destruct (nth_lenN ch (n - 1) ltac:(lia)) as [e E]. destruct (proj2 (F (n - 1) e)) as [j J]; [split; [lia|exact E]|].
    specialize (M _ J). cbn [snd hrPos hrDomain] in M. rewrite beq_refl in M. specialize (M eq_refl). lia.
  - destruct (N.eqb_spec n 0); [reflexivity|]. destruct (nth_lenN ch 0 ltac:(lia)) as [e E]. destruct (proj2 (F 0 e)) as [j J]; [split; [lia|exact E]|].
    apply (tmax_none _ _ _ T) in J. cbn [snd hrDomain] in J. rewrite beq_refl in J. discriminate J.
Qed.
Lemma follows_entry U ch domain n d p : follows ch (mapDomain U domain) n d -> p < n -> p < 2 ^ 63 -> exists e, nth_error ch (N.to_nat p) = Some e /\ chainEntry U domain p d = Ok e.
Proof.
  intros [L F] P B. destruct (nth_lenN ch p ltac:(lia)) as [e E]. exists e. split; [exact E|]. unfold chainEntry, sqlInt. rewrite (proj2 (N.ltb_lt _ _) B). cbn [negb].
  destruct (tmin _ (kChain d)) as [[i r]|] eqn:T.
  - apply tmin_some in T as (I & Q). cbn [fst snd] in *. apply andb_true_iff in Q as [Q1 Q2]. apply beq_spec in Q1. apply N.eqb_eq in Q2.
    assert (H : hasRow (mapDomain U domain) p (hrEntry r) d) by (exists i; rewrite <- Q1, <- Q2, <- hrow_eta; exact I).
    apply F in H as [_ H]. f_equal. congruence.
  - destruct (proj2 (F p e)) as [j J]; [split; [exact P|exact E]|]. apply (tmin_none _ _ T) in J. cbn [fst snd hrDomain hrPos] in J. rewrite beq_refl, N.eqb_refl in J. discriminate J.
Qed.

Lemma follows_grow ch l m n d : follows ch m n d -> follows (ch ++ l) m n d.
Proof.
  intros [L F]. split; [rewrite lenN_app; lia|]. intros p e. rewrite (F p e). split; intros [A B]; (split; [exact A|]); [rewrite nth_error_app1; [exact B|]|rewrite nth_error_app1 in B; [exact B|]]; unfold lenN in L; lia.
Qed.
Lemma follows_same ch m n d d' : kChain d' = kChain d -> follows ch m n d -> follows ch m n d'.
Proof. intros E [L F]. split; [exact L|]. intros p e. rewrite <- (F p e). unfold hasRow. rewrite E. reflexivity. Qed.
Lemma follows_add U ch domain n e d : follows ch (mapDomain U domain) n d -> nth_error ch (N.to_nat n) = Some e -> n < 2 ^ 63 ->
  exists d', addChainEntry U domain n e d = Ok d' /\ follows ch (mapDomain U domain) (n + 1) d' /\ forall ch' m k, m <> mapDomain U domain -> follows ch' m k d -> follows ch' m k d'.
Proof.
  intros [L F] E B. unfold addChainEntry, sqlInt. rewrite (proj2 (N.ltb_lt _ _) B). cbn [negb]. eexists. split; [reflexivity|].
  assert (R : forall m p x, hasRow m p x (setChain (tins (mkHR (mapDomain U domain) n e) (kChain d)) (nextId (kChain d)) d) <-> hasRow m p x d \/ m = mapDomain U domain /\ p = n /\ x = e).
  { intros m p x. unfold hasRow. cbn [kChain setChain]. split.
    - intros [i I]. apply In_tins in I as [I|I]; [left; exists i; exact I|right]. apply pair_equal_spec in I as [_ I]. injection I as -> -> ->. auto.
    - intros [[i I]|(-> & -> & ->)]; [exists i; apply In_tins; left; exact I|exists (nextId (kChain d)); apply In_tins; right; reflexivity]. }
  split.
  - split; [apply lenN_nth in E; lia|]. intros p x. rewrite R, F. split.
    + intros [[A X]|(_ & -> & ->)]; split; try assumption; lia.
    + intros [A X]. destruct (N.eq_dec p n) as [->|NE]; [right; repeat split; congruence|left; split; [lia|exact X]].
  - intros ch' m k NE [L' F']. split; [exact L'|]. intros p x. rewrite R, F'. split; [intros [X|(X & _)]; [exact X|contradiction]|intros X; left; exact X].
Qed.

(* ---- synchronising ---- *)
Lemma storeDB_follows U ok ch domain hcPos : hcPos < lenN ch -> lenN ch <= 2 ^ 53 -> forall es i d, follows ch (mapDomain U domain) i d -> i <= hcPos + 1 ->
  (forall k, (k < N.to_nat (hcPos + 1 - i))%nat -> nth_error es k = Some (nth_error ch (N.to_nat i + k))) ->
  exists n d', storeDB U ok domain i hcPos es d = (Ok tt, d') /\ i <= n /\ n <= hcPos + 1 /\ follows ch (mapDomain U domain) n d' /\ ((forall p, ok p = true) -> n = hcPos + 1) /\
    forall ch' m k, m <> mapDomain U domain -> follows ch' m k d -> follows ch' m k d'.
Proof.
  intros HP BL. assert (B53 : 2 ^ 53 < 2 ^ 63) by reflexivity. induction es as [|o es IH]; intros i d F LI H; cbn [storeDB].
  - destruct (N.ltb_spec hcPos i); [exists i, d; split; [reflexivity|]; split; [lia|]; split; [lia|]; split; [exact F|]; split; [intros _; lia|auto]|]. specialize (H 0%nat ltac:(lia)). discriminate H.
  - destruct (N.ltb_spec hcPos i); [exists i, d; split; [reflexivity|]; split; [lia|]; split; [lia|]; split; [exact F|]; split; [intros _; lia|auto]|].
    pose proof (H 0%nat ltac:(lia)) as H9. cbn [nth_error] in H9. rewrite Nat.add_0_r in H9. destruct (nth_lenN ch i ltac:(lia)) as [e E]. rewrite E in H9. injection H9 as ->.
    destruct (ok i) eqn:OK; [|exists i, d; split; [reflexivity|]; split; [lia|]; split; [lia|]; split; [exact F|]; split; [intros K; rewrite K in OK; discriminate OK|auto]].
    destruct (follows_add U ch domain i e d F E ltac:(lia)) as (d1 & A & F1 & O1). rewrite A.
    destruct (IH (i + 1) d1 F1 ltac:(lia)) as (n & d' & S & L1 & L2 & F2 & C2 & O2).
    { intros k Hk. specialize (H (S k) ltac:(lia)). cbn [nth_error] in H. rewrite H. f_equal. f_equal. lia. }
    exists n, d'. split; [exact S|]. split; [lia|]. split; [exact L2|]. split; [exact F2|]. split; [exact C2|]. intros ch' m k NE X. apply O2, O1; assumption.
Qed.
Lemma nth_firstn_lt {A} (l : list A) : forall n k, (k < n)%nat -> nth_error (firstn n l) k = nth_error l k.
Proof. induction l as [|x l IH]; intros [|n] [|k] L; try lia; try reflexivity. cbn [firstn nth_error]. apply IH. lia. Qed.
Lemma nth_skipn {A} (l : list A) : forall n k, nth_error (skipn n l) k = nth_error l (n + k).
Proof. induction l as [|x l IH]; intros [|n] k; try reflexivity. - cbn [skipn]. destruct k; reflexivity. - cbn [skipn plus nth_error]. apply IH. Qed.

Lemma sync_follows U domain k late ok ss d n : let m := mapDomain U domain in follows (ss m) m n d -> lenN (ss m ++ late) <= 2 ^ 53 ->
  exists n' r d', hsync U domain k late ok ss d = (r, d') /\ n <= n' /\ n' <= lenN (ss m) /\ follows (ss m ++ late) m n' d' /\
    (k = Through -> ss m <> [] -> r = Ok tt /\ ((forall p, ok p = true) -> n' = lenN (ss m))) /\ forall ch' m' q, m' <> m -> follows ch' m' q d -> follows ch' m' q d'.
Proof.
  intros m F BL. unfold hsync. fold m. set (ch := ss m) in *.
  assert (ST : forall r, exists n' r' d', (r, d) = (r', d') /\ n <= n' /\ n' <= lenN ch /\ follows (ch ++ late) m n' d' /\ ((ch <> [] -> r = Ok tt /\ n = lenN ch) -> k = Through -> ch <> [] -> r' = Ok tt /\ ((forall p, ok p = true) -> n' = lenN ch)) /\
    forall ch' m' q, m' <> m -> follows ch' m' q d -> follows ch' m' q d').
  { intros r. exists n, r, d. split; [reflexivity|]. split; [lia|]. split; [apply F|]. split; [apply follows_grow, F|]. split; [intros X _ NE; destruct (X NE) as [-> ->]; auto|auto]. }
  assert (BAD : forall r, k <> Through \/ ch = [] -> exists n' r' d', (r, d) = (r', d') /\ n <= n' /\ n' <= lenN ch /\ follows (ch ++ late) m n' d' /\ (k = Through -> ch <> [] -> r' = Ok tt /\ ((forall p, ok p = true) -> n' = lenN ch)) /\
    forall ch' m' q, m' <> m -> follows ch' m' q d -> follows ch' m' q d').
  { intros r K. destruct (ST r) as (n' & r' & d' & E & L1 & L2 & F' & C' & O'). exists n', r', d'. split; [exact E|]. split; [exact L1|]. split; [exact L2|]. split; [exact F'|]. split; [intros K1 K2; destruct K as [K|K]; contradiction|exact O']. }
  destruct k; [apply BAD; left; discriminate| |].
  - unfold syncDB, honestLast. destruct ch as [|c ch0] eqn:CH; [apply BAD; left; discriminate|]. cbn [lrEntry lrPos]. destruct (lastChainPos U domain d); [destruct (_ <=? _)|]; apply BAD; left; discriminate.
  - destruct (list_eq_dec (list_eq_dec N.eq_dec) ch []) as [E0|NE]; [unfold syncDB; rewrite E0; cbn [honestLast]; rewrite <- E0; apply BAD; right; exact E0|].
    assert (P : 0 < lenN ch) by (destruct ch; [contradiction|rewrite lenN_cons; lia]).
    assert (HL : honestLast ch = Ok (mkLast (Some (List.last ch [])) (Some (lenN ch - 1)))) by (destruct ch; [contradiction|reflexivity]).
    unfold syncDB. rewrite HL. cbn [lrEntry lrPos]. rewrite (follows_last U ch domain n d F). rewrite lenN_app in BL.
    assert (GO : exists n' r d', (let (es, first) := (map Some (takeN (lenN ch - 1 + 1 - n) (dropN n (ch ++ late))), n) in storeDB U ok domain first (lenN ch - 1) es d) = (r, d') /\ n <= n' /\ n' <= lenN ch /\ follows (ch ++ late) m n' d' /\
      (Through = Through -> ch <> [] -> r = Ok tt /\ ((forall p, ok p = true) -> n' = lenN ch)) /\ forall ch' m' q, m' <> m -> follows ch' m' q d -> follows ch' m' q d').
    { destruct F as [Ln F]. destruct (storeDB_follows U ok (ch ++ late) domain (lenN ch - 1)) with (es := map Some (takeN (lenN ch - 1 + 1 - n) (dropN n (ch ++ late)))) (i := n) (d := d) as (n' & d' & S & L1 & L2 & F2 & C2 & O2).
      - rewrite lenN_app. lia.
      - rewrite lenN_app. exact BL.
      - apply follows_grow. split; assumption.
      - lia.
      - intros j Hj. rewrite nth_error_map. Transparent takeN dropN. unfold takeN, dropN. Opaque takeN dropN. rewrite nth_firstn_lt by exact Hj. rewrite nth_skipn.
        destruct (nth_error (ch ++ late) (N.to_nat n + j)) eqn:X; [reflexivity|]. apply nth_error_None in X. rewrite app_length in X. unfold lenN in *. lia.
      - exists n', (Ok tt), d'. split; [exact S|]. split; [exact L1|]. split; [lia|]. split; [exact F2|]. split; [intros _ _; split; [reflexivity|intros K; rewrite (C2 K); lia]|exact O2]. }
    destruct (N.eqb_spec n 0) as [->|Hn].
    + exact GO.
    + destruct (N.leb_spec (lenN ch - 1) (n - 1)).
      * destruct (ST (Ok tt)) as (n' & r' & d' & E & L1 & L2 & F' & C' & O'). exists n', r', d'. split; [exact E|]. split; [exact L1|]. split; [exact L2|]. split; [exact F'|]. split; [|exact O'].
        intros K1 K2. apply C'; try assumption. intros _. split; [reflexivity|]. destruct F as [Ln _]. lia.
      * replace (n - 1 + 1) with n by lia. exact GO.
Qed.

(* ---- histories ---- *)
(* the chain of the database is written by synchronising only *)
Definition calm (e : hev) : Prop := match e with HOther (KAddChainEntry _ _ _) => False | _ => True end.
Definition deletes (U : Unicode) (domain : bytes) (e : hev) : bool := match e with HDel x | HOther (KDelChain x) => beq (mapDomain U x) (mapDomain U domain) | _ => false end.
Lemma del_follows U x d m ch n : follows ch m n d -> follows ch m (if beq (mapDomain U x) m then 0 else n) (delChain U x d).
Proof.
  intros [L F]. assert (R : forall p e, hasRow m p e (delChain U x d) <-> hasRow m p e d /\ beq m (mapDomain U x) = false).
  { intros p e. unfold hasRow, delChain. cbn [kChain setChain]. split.
    - intros [i I]. apply In_tdel in I as [I J]. cbn [fst snd hrDomain] in J. split; [exists i; exact I|exact J].
    - intros [[i I] J]. exists i. apply In_tdel. split; [exact I|]. cbn [fst snd hrDomain]. exact J. }
  rewrite (beq_sym (mapDomain U x) m). split; [destruct (beq m (mapDomain U x)); [apply N.le_0_l|exact L]|]. intros p e. rewrite R, F.
  destruct (beq m (mapDomain U x)); split; [intros [_ X]; discriminate X|intros [X _]; lia|intros [X _]; exact X|intros X; split; [exact X|reflexivity]].
Qed.
Lemma kexec_chain U o d d' : kexec U o d = Ok d' -> match o with KAddChainEntry _ _ _ | KDelChain _ => True | _ => kChain d' = kChain d end.
Proof.
  intros E. destruct o; try exact I; cbn [kexec] in E;
    unfold dbDelMessageKey, dbSetState, dbAddSessionKey, dbDelPriv, addPrivateUID, addPrivateUIDReply, delPrivateUID, addPublicUID, addSession in E;
    repeat match type of E with (if ?b then _ else _) = _ => destruct b | (let (_, _) := ?x in _) = _ => destruct x eqn:? | match ?x with Some _ => _ | None => _ end = _ => destruct x as [[? ?]|] end;
    try discriminate; injection E as <-; try reflexivity.
  match goal with H : match ?x with Some _ => _ | None => _ end = _ |- _ => destruct x as [[? ?]|]; injection H as <- <- end; reflexivity.
Qed.
Lemma append_len m es ss x : lenN (ss x) <= lenN (append m es ss x).
Proof. unfold append. destruct (beq x m); [rewrite lenN_app; lia|lia]. Qed.
Lemma append_app m es ss x : exists l, append m es ss x = ss x ++ l.
Proof. unfold append. destruct (beq x m); [eauto|exists []; rewrite app_nil_r; reflexivity]. Qed.
Lemma hstep_app U e w x : exists l, fst (hstep U e w) x = fst w x ++ l.
Proof. destruct e; cbn [hstep fst]; try apply append_app; exists []; rewrite app_nil_r; reflexivity. Qed.
Lemma hrun_app U es : forall w x, exists l, fst (hrun U es w) x = fst w x ++ l.
Proof.
  induction es as [|e es IH]; intros w x; [exists []; rewrite app_nil_r; reflexivity|]. cbn [hrun fold_left]. destruct (IH (hstep U e w) x) as [l E]. fold (hrun U es (hstep U e w)). rewrite E.
  destruct (hstep_app U e w x) as [l' E']. rewrite E'. exists (l' ++ l). rewrite app_assoc. reflexivity.
Qed.
Definition bounded (ss : bytes -> list bytes) : Prop := forall m, lenN (ss m) <= 2 ^ 53.
Lemma bounded_before U es w : bounded (fst (hrun U es w)) -> bounded (fst w).
Proof. intros B m. specialize (B m). destruct (hrun_app U es w m) as [l E]. rewrite E, lenN_app in B. lia. Qed.
(* one event: every copy still follows its server, and it shrinks only when it is deleted *)
Lemma step_follows U e w m n : calm e -> bounded (fst (hstep U e w)) -> follows (fst w m) m n (snd w) ->
  (forall m', exists n', follows (fst w m') m' n' (snd w)) ->
  exists n', follows (fst (hstep U e w) m) m n' (snd (hstep U e w)) /\ (n <= n' \/ exists x, mapDomain U x = m /\ (e = HDel x \/ e = HOther (KDelChain x))).
Proof.
  intros CA B F ALL. destruct w as [ss d]. cbn [fst snd] in *. destruct e as [m1 es|dm k late ok|dm|o]; cbn [hstep fst snd] in *.
  - destruct (append_app m1 es ss m) as [l E]. exists n. rewrite E. split; [apply follows_grow, F|left; lia].
  - destruct (append_app (mapDomain U dm) late ss m) as [l E]. destruct (ALL (mapDomain U dm)) as [n0 F0].
    assert (BB : lenN (ss (mapDomain U dm) ++ late) <= 2 ^ 53) by (specialize (B (mapDomain U dm)); unfold append in B; rewrite beq_refl in B; exact B).
    destruct (beq m (mapDomain U dm)) eqn:Q.
    + apply beq_spec in Q. subst m. destruct (sync_follows U dm k late ok ss d n F BB) as (n' & r & d' & S & L1 & _ & F' & _). rewrite S. cbn [snd]. exists n'. unfold append. rewrite beq_refl. split; [exact F'|left; exact L1].
    + destruct (sync_follows U dm k late ok ss d n0 F0 BB) as (n' & r & d' & S & _ & _ & _ & _ & O'). rewrite S. cbn [snd]. exists n. unfold append. rewrite Q. apply beq_neq in Q. split; [apply O'; assumption|left; lia].
  - exists (if beq (mapDomain U dm) m then 0 else n). split; [apply del_follows, F|]. destruct (beq (mapDomain U dm) m) eqn:Q; [right; exists dm; apply beq_spec in Q; auto|left; lia].
  - unfold kstep. destruct (kexec U o d) as [d'| |] eqn:K; try (exists n; split; [exact F|left; lia]). pose proof (kexec_chain U o d d' K) as X.
    destruct o as [a1 a2 a3 a4 a5|a1 a2 a3|a1 a2|a1 a2 a3 a4|a1|u|u r|u|u p|x1 x2 x3|x|]; try (exists n; split; [apply (follows_same _ _ _ d); assumption|left; lia]); [destruct CA|].
    cbn [kexec] in K. injection K as <-. exists (if beq (mapDomain U x) m then 0 else n). split; [apply del_follows, F|]. destruct (beq (mapDomain U x) m) eqn:Q; [right; exists x; apply beq_spec in Q; auto|left; lia].
Qed.
Lemma run_follows U es : Forall calm es -> forall w, bounded (fst (hrun U es w)) -> (forall m, exists n, follows (fst w m) m n (snd w)) ->
  (forall m, exists n, follows (fst (hrun U es w) m) m n (snd (hrun U es w))) /\
  forall domain n, forallb (fun e => negb (deletes U domain e)) es = true -> follows (fst w (mapDomain U domain)) (mapDomain U domain) n (snd w) ->
    exists n', n <= n' /\ follows (fst (hrun U es w) (mapDomain U domain)) (mapDomain U domain) n' (snd (hrun U es w)).
Proof.
  induction 1 as [|e es CA _ IH]; intros w B ALL; [split; [exact ALL|]; intros domain n _ F; exists n; split; [lia|exact F]|].
  cbn [hrun fold_left] in *. fold (hrun U es (hstep U e w)) in *. pose proof (bounded_before U es _ B) as B1.
  assert (ALL1 : forall m, exists n, follows (fst (hstep U e w) m) m n (snd (hstep U e w))).
  { intros m. destruct (ALL m) as [n F]. destruct (step_follows U e w m n CA B1 F ALL) as (n' & F' & _). exists n'. exact F'. }
  destruct (IH _ B ALL1) as [IH1 IH2]. split; [exact IH1|]. intros domain n D F. cbn [forallb] in D. apply andb_true_iff in D as [D1 D2].
  destruct (step_follows U e w _ n CA B1 F ALL) as (n1 & F1 & L1). destruct (IH2 domain n1 D2 F1) as (n' & L' & F'). exists n'. split; [|exact F'].
  destruct L1 as [L1|(x & X1 & X2)]; [lia|]. exfalso. destruct X2 as [->| ->]; cbn [deletes] in D1; rewrite X1, beq_refl in D1; discriminate D1.
Qed.
Lemma start_follows ss m : follows (ss m) m 0 emptyKDB.
Proof. split; [apply N.le_0_l|]. intros p e. split; [intros [i []]|intros [X _]; lia]. Qed.

(* ---- what is shown ---- *)
Lemma showLoop_follows U ch domain n d : follows ch (mapDomain U domain) n d -> n <= 2 ^ 53 -> forall k i, i + N.of_nat k = n -> showLoop U domain k i d = (Ok tt, dropN i (takeN n ch)).
Proof.
  intros F B. assert (B53 : 2 ^ 53 < 2 ^ 63) by reflexivity. assert (LT : lenN (takeN n ch) = n) by (rewrite lenN_takeN; destruct F; lia).
  induction k as [|k IH]; intros i E; cbn [showLoop].
  - rewrite dropN_all by lia. reflexivity.
  - destruct (follows_entry U ch domain n d i F ltac:(lia) ltac:(lia)) as (e & NE & CE). rewrite CE, IH by lia. f_equal.
    Transparent takeN dropN. unfold takeN, dropN. Opaque takeN dropN. replace (N.to_nat (i + 1)) with (S (N.to_nat i)) by lia.
    rewrite <- (nth_firstn_lt ch (N.to_nat n)) in NE by lia. revert NE. generalize (firstn (N.to_nat n) ch). generalize (N.to_nat i). clear. induction n as [|n IH]; intros [|x l] NE; try discriminate NE.
    + injection NE as ->. reflexivity.
    + cbn [skipn]. apply IH. exact NE.
Qed.
Lemma show_follows U ch domain n d : follows ch (mapDomain U domain) n d -> n <= 2 ^ 53 -> snd (showHashChain U domain d) = takeN n ch /\ (fst (showHashChain U domain d) = Ok tt <-> n <> 0).
Proof.
  intros F B. unfold showHashChain. rewrite (follows_last U ch domain n d F). destruct (N.eqb_spec n 0) as [->|NE].
  - split; [destruct ch; reflexivity|]. cbn [fst]. split; [intros X; discriminate X|congruence].
  - rewrite (showLoop_follows U ch domain n d F B) by lia. cbn [fst snd]. split; [reflexivity|]. split; auto.
Qed.

(* ------------------------------------------------------------------ *)
(* C197.  Whatever happens, hashchain show prints a first part of the chain of the server, in order and without an error unless
   there is nothing to print. *)
Theorem C197_prefix : forall U es ss domain, let w := hrun U es (ss, emptyKDB) in Forall calm es -> bounded (fst w) ->
  (exists rest, fst w (mapDomain U domain) = snd (showHashChain U domain (snd w)) ++ rest) /\ (snd (showHashChain U domain (snd w)) <> [] -> fst (showHashChain U domain (snd w)) = Ok tt).
Proof.
  intros U es ss domain w CA B. destruct (run_follows U es CA (ss, emptyKDB) B) as [ALL _]; [intros m; exists 0; apply start_follows|]. fold w in ALL. destruct (ALL (mapDomain U domain)) as [n F].
  destruct (show_follows U _ domain n _ F) as [A C]; [specialize (B (mapDomain U domain)); destruct F as [F _]; fold w in B; lia|]. split.
  - exists (dropN n (fst w (mapDomain U domain))). rewrite A, takeN_dropN. reflexivity.
  - intros NE. apply C. intros ->. apply NE. rewrite A. destruct (fst w (mapDomain U domain)); reflexivity.
Qed.
(* If both calls get through and the database takes the entries, the whole chain is there afterwards, as it was at the first call,
   whatever failed before. *)
Theorem C197_complete : forall U es ss domain late ok, let w := hrun U es (ss, emptyKDB) in let m := mapDomain U domain in Forall calm es -> bounded (append m late (fst w)) -> fst w m <> [] ->
  (forall p, ok p = true) -> exists d', hsync U domain Through late ok (fst w) (snd w) = (Ok tt, d') /\ showHashChain U domain d' = (Ok tt, fst w m).
Proof.
  intros U es ss domain late ok w m CA B NE K.
  assert (B0 : bounded (fst w)) by (intros x; specialize (B x); pose proof (append_len m late (fst w) x); lia).
  destruct (run_follows U es CA (ss, emptyKDB) B0) as [ALL _]; [intros x; exists 0; apply start_follows|]. fold w in ALL. destruct (ALL m) as [n F].
  assert (BB : lenN (fst w m ++ late) <= 2 ^ 53) by (specialize (B m); unfold append in B; rewrite beq_refl in B; exact B).
  destruct (sync_follows U domain Through late ok (fst w) (snd w) n F BB) as (n' & r & d' & S & _ & L2 & F' & C' & _). destruct (C' eq_refl NE) as [-> N']. specialize (N' K). fold m in N', L2, F'.
  exists d'. split; [exact S|]. destruct (show_follows U _ domain n' d' F') as [A E]; [rewrite lenN_app in BB; lia|]. rewrite (surjective_pairing (showHashChain U domain d')), A. f_equal.
  - apply E. rewrite N'. destruct (fst w m); [contradiction|rewrite lenN_cons; lia].
  - apply takeN_app. symmetry. exact N'.
Qed.
(* Unless it is deleted, the copy only grows. *)
Theorem C197_kept : forall U es ss es' domain, let w := hrun U es (ss, emptyKDB) in let w' := hrun U es' w in Forall calm (es ++ es') -> bounded (fst w') ->
  forallb (fun e => negb (deletes U domain e)) es' = true -> exists rest, snd (showHashChain U domain (snd w')) = snd (showHashChain U domain (snd w)) ++ rest.
Proof.
  intros U es ss es' domain w w' CA B D. apply Forall_app in CA as [CA CA']. pose proof (bounded_before U es' w B) as B0.
  destruct (run_follows U es CA (ss, emptyKDB) B0) as [ALL _]; [intros x; exists 0; apply start_follows|]. fold w in ALL. destruct (ALL (mapDomain U domain)) as [n F].
  destruct (run_follows U es' CA' w B ALL) as [_ G]. destruct (G domain n D F) as (n' & L & F'). fold w' in F'.
  destruct (show_follows U _ domain n _ F) as [A _]; [specialize (B0 (mapDomain U domain)); destruct F as [F _]; lia|]. destruct (show_follows U _ domain n' _ F') as [A' _]; [specialize (B (mapDomain U domain)); destruct F' as [F' _]; fold w' in B; lia|].
  rewrite A, A'. destruct (hrun_app U es' w (mapDomain U domain)) as [l E]. fold w' in E. rewrite E. destruct F as [Ln _].
  exists (takeN (n' - n) (dropN n (fst w (mapDomain U domain) ++ l))).
  rewrite <- (takeN_dropN n (fst w (mapDomain U domain) ++ l)) at 1. assert (T : takeN n (fst w (mapDomain U domain) ++ l) = takeN n (fst w (mapDomain U domain))).
  { rewrite <- (takeN_dropN n (fst w (mapDomain U domain))) at 1. rewrite <- app_assoc. apply takeN_app. rewrite lenN_takeN. lia. }
  rewrite T. Transparent takeN. unfold takeN at 1. Opaque takeN. rewrite firstn_app. assert (LL : length (takeN n (fst w (mapDomain U domain))) = N.to_nat n) by (pose proof (lenN_takeN n (fst w (mapDomain U domain))) as X; unfold lenN in X, Ln; lia).
  rewrite firstn_all2 by lia. f_equal. rewrite LL. Transparent takeN. unfold takeN. Opaque takeN. f_equal. lia.
Qed.
(* Deleting empties the copy of that domain and leaves the others as they are. *)
Theorem C197_deleted : forall U es ss x, let w := hrun U es (ss, emptyKDB) in Forall calm es -> bounded (fst w) ->
  showHashChain U x (deleteHashChain U x (snd w)) = (Err "no hash chain entries found for domain"%string, []) /\
  forall domain, mapDomain U domain <> mapDomain U x -> showHashChain U domain (deleteHashChain U x (snd w)) = showHashChain U domain (snd w).
Proof.
  intros U es ss x w CA B. destruct (run_follows U es CA (ss, emptyKDB) B) as [ALL _]; [intros m; exists 0; apply start_follows|]. fold w in ALL. split.
  - destruct (ALL (mapDomain U x)) as [n F]. apply (del_follows U x) in F. rewrite beq_refl in F. unfold showHashChain, deleteHashChain. rewrite (follows_last U _ x 0 _ F). reflexivity.
  - intros domain NE. destruct (ALL (mapDomain U domain)) as [n F]. pose proof (del_follows U x _ _ _ _ F) as F'. replace (beq (mapDomain U x) (mapDomain U domain)) with false in F' by (symmetry; apply beq_neq; congruence).
    unfold showHashChain, deleteHashChain. rewrite (follows_last U _ domain n _ F), (follows_last U _ domain n _ F'). destruct (N.eqb_spec n 0); [reflexivity|].
    assert (Bn : n <= 2 ^ 53) by (specialize (B (mapDomain U domain)); destruct F as [F _]; fold w in B; lia).
    rewrite (showLoop_follows U _ domain n _ F Bn), (showLoop_follows U _ domain n _ F' Bn) by lia. reflexivity.
Qed.

(* ---- the copy of a valid chain is valid ---- *)
(* the entries decode, and each names the hash of the one before *)
Fixpoint linked (C : Crypto) (prev : bytes) (ch : list bytes) : Prop :=
  match ch with
  | [] => True
  | s :: r => exists e, splitEntry s = Ok e /\ hcTyp e = [1] /\ hcHash e = sha256 C ([1] ++ hcNonce e ++ hcHashID e ++ hcCrUID e ++ hcIndex e ++ prev) /\ linked C (hcHash e) r
  end.
Lemma linked_take C n : forall ch prev, linked C prev ch -> linked C prev (firstn n ch).
Proof. induction n as [|n IH]; intros [|s ch] prev L; try exact I. destruct L as (e & A & B & D & L). exists e. auto. Qed.
Lemma validateLoop_linked U C domain d : forall l i prev, linked C prev l -> (forall k s, nth_error l k = Some s -> chainEntry U domain (i + N.of_nat k) d = Ok s) -> validateLoop U C domain (length l) i prev d = Ok tt.
Proof.
  induction l as [|s l IH]; intros i prev L H; [reflexivity|]. destruct L as (e & SE & TY & HA & L). cbn [length validateLoop]. pose proof (H 0%nat s eq_refl) as E0. rewrite N.add_0_r in E0. rewrite E0. cbn [rbind]. rewrite SE. cbn [rbind].
  rewrite TY. unfold hcType. rewrite beq_refl. cbn [negb]. unfold hcImage. rewrite TY, HA, beq_refl. cbn [negb]. rewrite <- HA. apply IH; [exact L|].
  intros k x Hk. rewrite <- (H (Datatypes.S k) x Hk). f_equal. lia.
Qed.
(* the user's identities in the domain can be read, and the receipts of the server for them are entries of its chain *)
Definition receipts (U : Unicode) (C : Crypto) (domain : bytes) (ch : list bytes) (d : keydb) : Prop :=
  exists ids, privIdentitiesForDomain U domain d = Ok ids /\ forall id, In id ids -> exists u rep, getPrivateUID C id d = Ok (u, rep) /\ forall r, rep = Some r -> nth_error ch (N.to_nat (rpHCPos r)) = Some (rpHCEntry r).
Lemma checkReplies_ok U C domain n ch d : follows ch (mapDomain U domain) n d -> n <= 2 ^ 53 -> n <> 0 -> forall ids,
  (forall id, In id ids -> exists u rep, getPrivateUID C id d = Ok (u, rep) /\ forall r, rep = Some r -> nth_error ch (N.to_nat (rpHCPos r)) = Some (rpHCEntry r)) -> checkReplies U C domain (n - 1) ids d = Ok tt.
Proof.
  intros F B N0. assert (B53 : 2 ^ 53 < 2 ^ 63) by reflexivity. induction ids as [|id ids IH]; intros H; [reflexivity|]. cbn [checkReplies]. destruct (H id (or_introl eq_refl)) as (u & rep & G & R). rewrite G. cbn [rbind].
  assert (TL : checkReplies U C domain (n - 1) ids d = Ok tt) by (apply IH; intros x X; apply H; right; exact X).
  destruct rep as [r|]; [|cbn [rbind]; exact TL]. destruct (N.leb_spec (rpHCPos r) (n - 1)); [|cbn [rbind]; exact TL].
  destruct (follows_entry U ch domain n d (rpHCPos r) F ltac:(lia) ltac:(lia)) as (e & NE & CE). rewrite (R r eq_refl) in NE. injection NE as <-. rewrite CE. cbn [rbind]. rewrite beq_refl. cbn [rbind]. exact TL.
Qed.
(* Whatever part of a valid chain has been fetched, hashchain validate accepts it. *)
Theorem C197_valid : forall U C es ss domain, let w := hrun U es (ss, emptyKDB) in Forall calm es -> bounded (fst w) -> linked C (repeat 0 32) (fst w (mapDomain U domain)) ->
  receipts U C domain (fst w (mapDomain U domain)) (snd w) -> fst (showHashChain U domain (snd w)) = Ok tt -> validateHashChain U C domain (snd w) = Ok tt.
Proof.
  intros U C es ss domain w CA B LK (ids & PI & RC) SH. destruct (run_follows U es CA (ss, emptyKDB) B) as [ALL _]; [intros m; exists 0; apply start_follows|]. fold w in ALL. destruct (ALL (mapDomain U domain)) as [n F].
  assert (Bn : n <= 2 ^ 53) by (specialize (B (mapDomain U domain)); destruct F as [F _]; fold w in B; lia). assert (B53 : 2 ^ 53 < 2 ^ 63) by reflexivity.
  destruct (show_follows U _ domain n _ F Bn) as [_ E]. apply E in SH. unfold validateHashChain. rewrite (follows_last U _ domain n _ F), PI. destruct (N.eqb_spec n 0); [contradiction|].
  replace (N.to_nat (n - 1 + 1)) with (length (firstn (N.to_nat n) (fst w (mapDomain U domain)))) by (rewrite firstn_length; destruct F as [F _]; unfold lenN in F; lia).
  rewrite validateLoop_linked; [cbn [rbind]; apply (checkReplies_ok U C domain n _ _ F Bn SH ids RC)|apply linked_take, LK|]. intros k s Hk.
  assert (KL : (k < N.to_nat n)%nat) by (assert (k < length (firstn (N.to_nat n) (fst w (mapDomain U domain))))%nat by (apply nth_error_Some; rewrite Hk; discriminate); rewrite firstn_length in *; lia).
  rewrite nth_firstn_lt in Hk by exact KL. destruct (follows_entry U _ domain n _ (0 + N.of_nat k) F ltac:(lia) ltac:(lia)) as (e & NE & CE). rewrite CE. f_equal. replace (N.to_nat (0 + N.of_nat k)) with k in NE by lia. congruence.
Qed.
(* a chain of two valid entries *)
Definition exLink (prev : bytes) : hcEntry := mkHC (sha256 toy ([1] ++ repeat 5 8 ++ repeat 1 32 ++ repeat 2 48 ++ repeat 3 32 ++ prev)) [1] (repeat 5 8) (repeat 1 32) (repeat 2 48) (repeat 3 32).
Definition exLinked : list bytes := Eval vm_compute in [b64enc (hcJoin (exLink (repeat 0 32))); b64enc (hcJoin (exLink (hcHash (exLink (repeat 0 32)))))].
Example C197_valid_ex : linked toy (repeat 0 32) exLinked.
Proof.
  exists (exLink (repeat 0 32)). split; [vm_compute; reflexivity|]. split; [reflexivity|]. split; [vm_compute; reflexivity|].
  exists (exLink (hcHash (exLink (repeat 0 32)))). split; [vm_compute; reflexivity|]. split; [reflexivity|]. split; [vm_compute; reflexivity|exact I].
Qed.

(* Full statement (false): a synchronisation that reports success leaves a complete copy.  The database refuses the second entry. *)
Definition exCh : list bytes := [str "a"; str "b"; str "c"].
Definition exDm : bytes := str "b.de".
Definition exSs : bytes -> list bytes := append exDm exCh (fun _ => []).
Definition full1 (p : N) : bool := negb (p =? 1).
Theorem C197_refuted : exists U domain ok ss d', hsync U domain Through [] ok ss emptyKDB = (Ok tt, d') /\ showHashChain U domain d' = (Ok tt, [str "a"]) /\ lenN (ss (mapDomain U domain)) = 3.
Proof. exists goUnicode, exDm, full1, exSs. eexists. split; [vm_compute; reflexivity|]. vm_compute. auto. Qed.
(* A history: nothing but failures, then a synchronisation, between whose calls an entry is appended, and another. *)
Definition exEs : list hev := [HSync exDm NoLast [] (fun _ => true); HSync exDm NoFetch [] (fun _ => true); HSync exDm Through [] full1; HOther KNewConn].
Example C197_ex : Forall calm exEs /\ snd (showHashChain goUnicode (str "B.de") (snd (hrun goUnicode exEs (exSs, emptyKDB)))) = [str "a"] /\
  snd (showHashChain goUnicode exDm (snd (hrun goUnicode (exEs ++ [HSync exDm Through [str "d"] (fun _ => true)]) (exSs, emptyKDB)))) = exCh /\
  snd (showHashChain goUnicode exDm (snd (hrun goUnicode (exEs ++ [HSync exDm Through [str "d"] (fun _ => true); HSync exDm Through [] (fun _ => true)]) (exSs, emptyKDB)))) = exCh ++ [str "d"].
Proof. split; [repeat (apply Forall_cons; [exact I|]); apply Forall_nil|]. vm_compute. auto. Qed.
Lemma exBounded : bounded (fst (hrun goUnicode exEs (exSs, emptyKDB))).
Proof.
  intros m. cbn [exEs hrun fold_left hstep fst]. unfold append, exSs, append. repeat (match goal with |- context [beq m ?x] => destruct (beq m x) end); vm_compute; discriminate.
Qed.
Example C197_complete_ex : exists d', hsync goUnicode exDm Through [] (fun _ => true) (fst (hrun goUnicode exEs (exSs, emptyKDB))) (snd (hrun goUnicode exEs (exSs, emptyKDB))) = (Ok tt, d') /\ showHashChain goUnicode exDm d' = (Ok tt, exCh).
Proof.
  destruct (C197_complete goUnicode exEs exSs exDm [] (fun _ => true)) as (d' & A & E); [repeat (apply Forall_cons; [exact I|]); apply Forall_nil| | |reflexivity|exists d'; split; [exact A|]].
  - intros m. pose proof (exBounded m) as B. unfold append. destruct (beq m _); [rewrite app_nil_r|]; exact B.
  - vm_compute. discriminate.
  - rewrite E. vm_compute. reflexivity.
Qed.
Print Assumptions C197_same.
Print Assumptions C197_prefix.
Print Assumptions C197_complete.
Print Assumptions C197_kept.
Print Assumptions C197_deleted.
Print Assumptions C197_valid.
Print Assumptions C197_refuted.
