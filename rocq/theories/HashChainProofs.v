(* Lemmas about hash chains. *)
From Verif Require Import Base Base64Model CodecModel IdentityModel JsonModel CryptoModel Maps StoreModel KeysModel HeaderModel HeaderProofs SqlModel SqlProofs KeyDBModel KeyDBProofs HashChainModel.
Local Open Scope N_scope.

Lemma chain_ids U ops : forall d, idsOk (kChain d) -> idsOk (kChain (krun U ops d)).
Proof.
  induction ops as [|o ops IH]; intros d I; [exact I|]. cbn [krun fold_left]. apply IH. unfold kstep.
  destruct (kexec U o d) as [d'|e|] eqn:E; [|exact I|exact I].
  destruct o; cbn [kexec] in E;
    unfold dbDelMessageKey, dbSetState, dbAddSessionKey, dbDelPriv, addPrivateUID, addPrivateUIDReply, delPrivateUID, addPublicUID, addChainEntry, addSession in E;
    repeat match type of E with (if ?b then _ else _) = _ => destruct b | (let (_, _) := ?x in _) = _ => destruct x eqn:? | match ?x with Some _ => _ | None => _ end = _ => destruct x as [[? ?]|] end;
    try discriminate; injection E as <-; try exact I.
  - match goal with H : match ?x with Some _ => _ | None => _ end = _ |- _ => destruct x as [[? ?]|]; injection H as <- <- end; exact I.
  - cbn [kChain setChain]. apply idsOk_tins, I.
  - cbn [kChain setChain delChain]. apply idsOk_tdel, I.
Qed.

(* ------------------------------------------------------------------ *)
(* Splitting.                                                           *)
Definition hcJoin (e : hcEntry) : bytes := hcHash e ++ hcTyp e ++ hcNonce e ++ hcHashID e ++ hcCrUID e ++ hcIndex e.
Definition hcLens (e : hcEntry) : Prop :=
  lenN (hcHash e) = 32 /\ lenN (hcTyp e) = 1 /\ lenN (hcNonce e) = 8 /\ lenN (hcHashID e) = 32 /\ lenN (hcCrUID e) = 48 /\ lenN (hcIndex e) = 32.
Lemma cut {A} n (b : list A) m : takeN m (dropN n b) ++ dropN (n + m) b = dropN n b.
Proof. rewrite <- dropN_dropN. apply takeN_dropN. Qed.
Lemma splitEntry_ok s e : splitEntry s = Ok e -> b64dec s = Some (hcJoin e) /\ hcLens e /\ hcTyp e = [1].
Proof.
  unfold splitEntry. destruct (b64dec s) as [b|]; [|discriminate]. unfold EntryByteLen. destruct (N.eqb_spec (lenN b) 153) as [L|L]; [|discriminate]. cbn [negb].
  destruct (beq (takeN 1 (dropN 32 b)) hcType) eqn:T; [|discriminate]. cbn [negb]. intros H. injection H as <-. apply beq_spec in T.
  split; [|split].
  - f_equal. unfold hcJoin. cbn [hcHash hcTyp hcNonce hcHashID hcCrUID hcIndex].
    rewrite (cut 73 b 48 : takeN 48 (dropN 73 b) ++ dropN 121 b = _). rewrite (cut 41 b 32 : takeN 32 (dropN 41 b) ++ dropN 73 b = _).
    rewrite (cut 33 b 8 : takeN 8 (dropN 33 b) ++ dropN 41 b = _). rewrite (cut 32 b 1 : takeN 1 (dropN 32 b) ++ dropN 33 b = _).
    symmetry. apply takeN_dropN.
  - unfold hcLens. cbn [hcHash hcTyp hcNonce hcHashID hcCrUID hcIndex]. rewrite !lenN_takeN, !lenN_dropN, L. repeat split; reflexivity.
  - exact T.
Qed.
Lemma splitEntry_join s e : b64dec s = Some (hcJoin e) -> hcLens e -> hcTyp e = [1] -> splitEntry s = Ok e.
Proof.
  intros D (L1 & L2 & L3 & L4 & L5 & L6) T. unfold splitEntry. rewrite D.
  assert (L : lenN (hcJoin e) = 153) by (unfold hcJoin; rewrite !lenN_app, L1, L2, L3, L4, L5, L6; reflexivity).
  rewrite L. change (negb (153 =? EntryByteLen)) with false. cbn iota.
  assert (D1 : dropN 32 (hcJoin e) = hcTyp e ++ hcNonce e ++ hcHashID e ++ hcCrUID e ++ hcIndex e) by (apply dropN_app; exact L1).
  assert (D2 : dropN 33 (hcJoin e) = hcNonce e ++ hcHashID e ++ hcCrUID e ++ hcIndex e).
  { change 33 with (32 + 1). rewrite <- dropN_dropN, D1. apply dropN_app; exact L2. }
  assert (D3 : dropN 41 (hcJoin e) = hcHashID e ++ hcCrUID e ++ hcIndex e).
  { change 41 with (33 + 8). rewrite <- dropN_dropN, D2. apply dropN_app; exact L3. }
  assert (D4 : dropN 73 (hcJoin e) = hcCrUID e ++ hcIndex e).
  { change 73 with (41 + 32). rewrite <- dropN_dropN, D3. apply dropN_app; exact L4. }
  assert (D5 : dropN 121 (hcJoin e) = hcIndex e).
  { change 121 with (73 + 48). rewrite <- dropN_dropN, D4. apply dropN_app; exact L5. }
  rewrite D1, D2, D3, D4, D5. rewrite (takeN_app (hcTyp e)) by exact L2. rewrite T, beq_refl. cbn [negb].
  rewrite (takeN_app (hcNonce e)) by exact L3. rewrite (takeN_app (hcHashID e)) by exact L4. rewrite (takeN_app (hcCrUID e)) by exact L5.
  unfold hcJoin. rewrite (takeN_app (hcHash e)) by exact L1. destruct e; cbn in *; subst; reflexivity.
Qed.

(* ------------------------------------------------------------------ *)
(* Validation.                                                          *)
Lemma app_len_inj {A} (a b c d : list A) : lenN a = lenN c -> a ++ b = c ++ d -> a = c /\ b = d.
Proof.
  intros L E. split.
  - rewrite <- (takeN_app a b (lenN a) eq_refl), E. apply takeN_app. congruence.
  - rewrite <- (dropN_app a b (lenN a) eq_refl), E. apply dropN_app. congruence.
Qed.
Lemma image_inj e f p q : hcLens e -> hcLens f -> hcHash e = hcHash f -> hcImage e p = hcImage f q -> e = f /\ p = q.
Proof.
  intros (L1 & L2 & L3 & L4 & L5 & L6) (M1 & M2 & M3 & M4 & M5 & M6) H E. unfold hcImage in E.
  apply app_len_inj in E as [E2 E]; [|congruence]. apply app_len_inj in E as [E3 E]; [|congruence].
  apply app_len_inj in E as [E4 E]; [|congruence]. apply app_len_inj in E as [E5 E]; [|congruence].
  apply app_len_inj in E as [E6 E]; [|congruence]. split; [|exact E]. destruct e, f; cbn in *; subst; reflexivity.
Qed.
Definition entryAt (U : Unicode) (domain : bytes) (i : N) (d : keydb) : option hcEntry :=
  match chainEntry U domain i d with Ok s => match splitEntry s with Ok e => Some e | _ => None end | _ => None end.
Definition prevAt (U : Unicode) (domain : bytes) (i : N) (d : keydb) : bytes :=
  if i =? 0 then repeat 0 32 else match entryAt U domain (i - 1) d with Some e => hcHash e | None => [] end.
(* what is hashed for position i *)
Definition hashedAt (U : Unicode) (domain : bytes) (d : keydb) (i : N) (x : bytes) : Prop :=
  exists e, entryAt U domain i d = Some e /\ x = hcImage e (prevAt U domain i d).
Lemma entryAt_lens U domain i d e : entryAt U domain i d = Some e -> hcLens e.
Proof.
  unfold entryAt. destruct (chainEntry U domain i d) as [s| |]; try discriminate. destruct (splitEntry s) as [e'| |] eqn:S; try discriminate.
  intros E; injection E as <-. apply splitEntry_ok in S as (_ & L & _). exact L.
Qed.
Lemma validateLoop_links U C domain d n : forall i prev, validateLoop U C domain n i prev d = Ok tt -> prev = prevAt U domain i d ->
  forall j, i <= j -> j < i + N.of_nat n -> exists e, entryAt U domain j d = Some e /\ hcHash e = sha256 C (hcImage e (prevAt U domain j d)).
Proof.
  induction n as [|n IH]; intros i prev V P j L1 L2; [lia|]. cbn [validateLoop] in V.
  destruct (chainEntry U domain i d) as [s| |] eqn:CE; cbn [rbind] in V; try discriminate.
  destruct (splitEntry s) as [e| |] eqn:S; cbn [rbind] in V; try discriminate.
  destruct (beq (hcTyp e) hcType); cbn [negb] in V; [|discriminate].
  destruct (beq (hcHash e) _) eqn:B in V; cbn [negb] in V; [|discriminate]. apply beq_spec in B.
  assert (EA : entryAt U domain i d = Some e) by (unfold entryAt; rewrite CE, S; reflexivity).
  destruct (N.eq_dec j i) as [->|NE].
  - exists e. split; [exact EA|]. rewrite <- P. exact B.
  - apply (IH (i + 1) (hcHash e) V); try lia. unfold prevAt. destruct (N.eqb_spec (i + 1) 0); [lia|].
    replace (i + 1 - 1) with i by lia. rewrite EA. reflexivity.
Qed.
Lemma validate_links U C domain d max : lastChainPos U domain d = Some max -> validateHashChain U C domain d = Ok tt ->
  forall j, j <= max -> exists e, entryAt U domain j d = Some e /\ hcHash e = sha256 C (hcImage e (prevAt U domain j d)).
Proof.
  intros LP V j L. unfold validateHashChain in V. rewrite LP in V.
  destruct (validateLoop U C domain (N.to_nat (max + 1)) 0 (repeat 0 32) d) as [[]| |] eqn:VL; cbn [rbind] in V; try discriminate.
  apply (validateLoop_links _ _ _ _ _ _ _ VL); [reflexivity|lia|lia].
Qed.
(* equal hashes at two positions force everything before to be equal *)
Lemma chains_back U C dom1 d1 m1 dom2 d2 m2 :
  (forall j, j <= m1 -> exists e, entryAt U dom1 j d1 = Some e /\ hcHash e = sha256 C (hcImage e (prevAt U dom1 j d1))) ->
  (forall j, j <= m2 -> exists e, entryAt U dom2 j d2 = Some e /\ hcHash e = sha256 C (hcImage e (prevAt U dom2 j d2))) ->
  (forall i j x y, i <= m1 -> j <= m2 -> hashedAt U dom1 d1 i x -> hashedAt U dom2 d2 j y -> sha256 C x = sha256 C y -> x = y) ->
  (forall e f, entryAt U dom1 m1 d1 = Some e -> entryAt U dom2 m2 d2 = Some f -> hcHash e = hcHash f) ->
  forall k, k <= m1 -> k <= m2 -> entryAt U dom1 (m1 - k) d1 = entryAt U dom2 (m2 - k) d2 /\ prevAt U dom1 (m1 - k) d1 = prevAt U dom2 (m2 - k) d2.
Proof.
  intros V1 V2 CF H. 
  assert (K : forall i j, i <= m1 -> j <= m2 -> (forall e f, entryAt U dom1 i d1 = Some e -> entryAt U dom2 j d2 = Some f -> hcHash e = hcHash f) ->
    entryAt U dom1 i d1 = entryAt U dom2 j d2 /\ prevAt U dom1 i d1 = prevAt U dom2 j d2).
  { intros i j Li Lj HH. destruct (V1 i Li) as (e & E1 & F1). destruct (V2 j Lj) as (f & E2 & F2). specialize (HH e f E1 E2).
    assert (X : hcImage e (prevAt U dom1 i d1) = hcImage f (prevAt U dom2 j d2)).
    { apply (CF i j); try assumption; [exists e; auto|exists f; auto|congruence]. }
    destruct (image_inj e f _ _ (entryAt_lens _ _ _ _ _ E1) (entryAt_lens _ _ _ _ _ E2) HH X) as [-> PE]. split; [congruence|exact PE]. }
  induction k as [|k IH] using N.peano_ind; intros L1 L2.
  - rewrite !N.sub_0_r. apply K; try lia. exact H.
  - destruct IH as [_ PE]; try lia. apply K; try lia. intros e f E1 E2.
    unfold prevAt in PE. destruct (N.eqb_spec (m1 - k) 0); [lia|]. destruct (N.eqb_spec (m2 - k) 0); [lia|].
    replace (m1 - k - 1) with (m1 - N.succ k) in PE by lia. replace (m2 - k - 1) with (m2 - N.succ k) in PE by lia. rewrite E1, E2 in PE. exact PE.
Qed.

(* ------------------------------------------------------------------ *)
(* Synchronisation.                                                     *)
Definition chainRow (dmn : bytes) (pos : N) (_ : N) (r : hcRow) : bool := beq (hrDomain r) dmn && (hrPos r =? pos).
Lemma chainEntry_add U dom1 p e d d' : idsOk (kChain d) -> addChainEntry U dom1 p e d = Ok d' -> idsOk (kChain d') /\
  p < 2 ^ 63 /\ forall dom2 q, chainEntry U dom2 q d' =
    if is_ok (chainEntry U dom2 q d) then chainEntry U dom2 q d
    else if beq (mapDomain U dom1) (mapDomain U dom2) && (p =? q) && (q <? 2 ^ 63) then Ok e else chainEntry U dom2 q d.
Proof.
  intros I A. unfold addChainEntry, sqlInt in A. destruct (N.ltb_spec p (2 ^ 63)) as [LP|]; [|discriminate]. cbn [negb] in A. injection A as <-.
  cbn [kChain setChain]. split; [apply idsOk_tins, I|]. split; [exact LP|]. intros dom2 q. unfold chainEntry, sqlInt. cbn [kChain setChain].
  destruct (q <? 2 ^ 63); cbn [negb is_ok]; [|rewrite andb_false_r; reflexivity]. rewrite andb_true_r.
  rewrite tmin_tins by exact I. destruct (tmin _ (kChain d)) as [[? ?]|]; [reflexivity|]. cbn [is_ok hrDomain hrPos]. destruct (_ && _); reflexivity.
Qed.
Lemma storeEntries_keep U domain hcPos es : forall i d r d', idsOk (kChain d) -> storeEntries U domain i hcPos es d = (r, d') ->
  idsOk (kChain d') /\ forall dom2 q s, chainEntry U dom2 q d = Ok s -> chainEntry U dom2 q d' = Ok s.
Proof.
  induction es as [|e es IH]; intros i d r d' I S; cbn [storeEntries] in S.
  - destruct (hcPos <? i); injection S as <- <-; auto.
  - destruct (hcPos <? i); [injection S as <- <-; auto|]. destruct e as [e|]; [|injection S as <- <-; auto].
    destruct (addChainEntry U domain i e d) as [d1| |] eqn:A; try (injection S as <- <-; auto).
    destruct (chainEntry_add _ _ _ _ _ _ I A) as (I1 & _ & K). destruct (IH _ _ _ _ I1 S) as [I' K']. split; [exact I'|].
    intros dom2 q s H. apply K'. rewrite K, H. reflexivity.
Qed.
Lemma storeEntries_full U domain hcPos es : hcPos < 2 ^ 63 -> forall i d d', idsOk (kChain d) -> storeEntries U domain i hcPos es d = (Ok tt, d') ->
  forall q, i <= q -> q <= hcPos -> exists s, chainEntry U domain q d' = Ok s /\
    (is_ok (chainEntry U domain q d) = false -> nth_error es (N.to_nat (q - i)) = Some (Some s)).
Proof.
  intros B. induction es as [|e es IH]; intros i d d' I S q L1 L2; cbn [storeEntries] in S.
  - destruct (N.ltb_spec hcPos i); [lia|discriminate].
  - destruct (N.ltb_spec hcPos i); [lia|]. destruct e as [e|]; [|discriminate].
    assert (A : exists d1, addChainEntry U domain i e d = Ok d1).
    { unfold addChainEntry, sqlInt. destruct (N.ltb_spec i (2 ^ 63)); [|lia]. eexists; reflexivity. }
    destruct A as [d1 A]. rewrite A in S. destruct (chainEntry_add _ _ _ _ _ _ I A) as (I1 & _ & K).
    pose proof (K domain q) as KQ. rewrite beq_refl in KQ. cbn [andb] in KQ.
    destruct (N.eq_dec q i) as [->|NE].
    + rewrite N.eqb_refl in KQ. destruct (N.ltb_spec i (2 ^ 63)); [|lia]. cbn [andb] in KQ. rewrite N.sub_diag. cbn [N.to_nat nth_error].
      destruct (storeEntries_keep _ _ _ _ _ _ _ _ I1 S) as [_ K'].
      destruct (chainEntry U domain i d) as [s| |] eqn:CE; cbn [is_ok] in KQ.
      * exists s. split; [apply K'; exact KQ|discriminate].
      * exists e. split; [apply K'; exact KQ|reflexivity].
      * exists e. split; [apply K'; exact KQ|reflexivity].
    + destruct (IH _ _ _ I1 S q) as (s & E1 & E2); try lia. exists s. split; [exact E1|]. intros NO.
      replace (N.to_nat (q - i)) with (Datatypes.S (N.to_nat (q - (i + 1)))) by lia. cbn [nth_error]. apply E2.
      rewrite KQ, NO. destruct (N.eqb_spec i q); [lia|]. exact NO.
Qed.

(* ------------------------------------------------------------------ *)
(* Search and lookup.                                                   *)
Definition firstKeyserver (u : uidMsg) : Prop := exists dm, split (uIdentity u) = Ok (keyserver, dm) /\ uMsgCount u = 0.
Lemma verifySrvSig_index C r u pk : verifySrvSig C r u pk = Ok tt -> exists b, b64dec (rpEnc r) = Some b /\ takeN 32 b = uidIndex C u.
Proof.
  unfold verifySrvSig. unfold replyDecrypt at 1. destruct (b64dec (rpEnc r)) as [b|]; cbn [rbind]; [|discriminate].
  destruct (lenN b <? 32); cbn [rbind]; [discriminate|]. destruct (ctrDecrypt C (uidHash C u) (dropN 32 b)); cbn [rbind]; try discriminate.
  destruct (newJSONUid a); cbn [rbind]; try discriminate. destruct (beq (takeN 32 b) (uidIndex C u)) eqn:B; cbn [negb]; [|discriminate].
  intros _. exists b. split; [reflexivity|]. apply beq_spec in B. exact B.
Qed.
Lemma fetchStore_ok C fetch m i e d d' : fetchStore C fetch m i e d = Ok d' ->
  exists u, addPublicUID u i d = Ok d' /\ verifySelfSig C u = Ok tt /\ (firstKeyserver u \/ uidIndex C u = hcIndex e).
Proof.
  unfold fetchStore. destruct (fetch (hcIndex e)) as [r| |]; cbn [rbind]; try discriminate.
  destruct (cbcDecrypt C _ _) as [h| |]; cbn [rbind]; try discriminate. destruct (replyDecrypt C r h) as [[idx u]| |] eqn:RD; cbn [rbind]; try discriminate.
  destruct (beq idx (hcIndex e)) eqn:B; cbn [negb]; [|discriminate]. apply beq_spec in B.
  destruct (verifySelfSig C u) as [[]| |] eqn:SS; cbn [rbind]; try discriminate.
  destruct (verifyServerSig C u r i d) as [[]| |] eqn:VS; cbn [rbind]; try discriminate.
  intros A. exists u. split; [exact A|]. split; [exact SS|]. unfold verifyServerSig, uidSplit in VS.
  destruct (split (uIdentity u)) as [[lp dm]| |] eqn:SP; cbn [rbind] in VS; try discriminate.
  destruct (beq lp keyserver && (uMsgCount u =? 0)) eqn:KS.
  - left. apply andb_prop in KS as [K1 K2]. apply beq_spec in K1. apply N.eqb_eq in K2. subst lp. exists dm. auto.
  - right. destruct (getPublicUID _ i d) as [[[srv ?]|]| |]; cbn [rbind] in VS; try discriminate.
    apply verifySrvSig_index in VS as (b & D & T). unfold replyDecrypt in RD. rewrite D in RD.
    destruct (lenN b <? 32); [discriminate|]. destruct (ctrDecrypt C h (dropN 32 b)); cbn [rbind] in RD; try discriminate.
    destruct (newJSONUid a); cbn [rbind] in RD; try discriminate. injection RD as <- _. congruence.
Qed.
(* a message stored under position i is bound to the hash-chain entry at i, which was made for the identity searched *)
Definition boundTo (U : Unicode) (C : Crypto) (domain mappedID : bytes) (d : keydb) (u : uidMsg) (i : N) : Prop :=
  exists e, entryAt U domain i d = Some e /\ entryFor C mappedID e = true /\ verifySelfSig C u = Ok tt /\
    (firstKeyserver u \/ uidIndex C u = hcIndex e).
Definition grown (d d' : keydb) (P : uidMsg -> N -> Prop) : Prop :=
  kChain d' = kChain d /\ exists l, map snd (kPub d') = map snd (kPub d) ++ map pubRowOf l /\ forall u i, In (u, i) l -> P u i.
Lemma grown_refl d P : grown d d P.
Proof. split; [reflexivity|]. exists []. split; [symmetry; apply app_nil_r|intros u i []]. Qed.
Lemma grown_trans d1 d2 d3 P : grown d1 d2 P -> grown d2 d3 P -> grown d1 d3 P.
Proof.
  intros [C1 (l1 & E1 & H1)] [C2 (l2 & E2 & H2)]. split; [congruence|]. exists (l1 ++ l2). split.
  - rewrite E2, E1, map_app, app_assoc. reflexivity.
  - intros u i I. apply in_app_or in I as [I|I]; auto.
Qed.
Lemma chain_same U domain i d d' : kChain d' = kChain d -> entryAt U domain i d' = entryAt U domain i d.
Proof. intros E. unfold entryAt, chainEntry. rewrite E. reflexivity. Qed.
Lemma fetchStore_grown U C fetch m domain i e d d' : entryAt U domain i d = Some e -> entryFor C m e = true ->
  fetchStore C fetch m i e d = Ok d' -> grown d d' (boundTo U C domain m d).
Proof.
  intros EA EF F. apply fetchStore_ok in F as (u & A & SS & B). unfold addPublicUID in A. destruct (negb _); [discriminate|]. injection A as <-.
  split; [reflexivity|]. exists [(u, i)]. split; [cbn [kPub setPub]; unfold tins; rewrite map_app; reflexivity|].
  intros u' i' [E|[]]. injection E as <- <-. exists e. auto.
Qed.
Lemma entryOf U domain i d e : (do s <- chainEntry U domain i d; splitEntry s) = Ok e -> entryAt U domain i d = Some e.
Proof. unfold entryAt. destruct (chainEntry U domain i d); cbn [rbind]; try discriminate. intros ->. reflexivity. Qed.
Lemma boundTo_same U C domain m d d' u i : kChain d' = kChain d -> boundTo U C domain m d' u i -> boundTo U C domain m d u i.
Proof. intros E (e & A & B). exists e. rewrite <- (chain_same U domain i _ _ E). auto. Qed.
Lemma grown_weaken d d' (P Q : uidMsg -> N -> Prop) : (forall u i, P u i -> Q u i) -> grown d d' P -> grown d d' Q.
Proof. intros H [E (l & E1 & H1)]. split; [exact E|]. exists l. split; [exact E1|]. intros u i I. apply H, H1, I. Qed.
Lemma searchLoop_grown U C so fetch m domain n : forall i b d r d', searchLoop U C so fetch m domain n i b d = (r, d') -> grown d d' (boundTo U C domain m d).
Proof.
  induction n as [|n IH]; intros i b d r d' S; cbn [searchLoop] in S; [injection S as <- <-; apply grown_refl|].
  destruct (do s <- chainEntry U domain i d; splitEntry s) as [e| |] eqn:EO; try (injection S as <- <-; apply grown_refl). apply entryOf in EO.
  destruct (negb (beq (hcTyp e) hcType)); [injection S as <- <-; apply grown_refl|].
  destruct (entryFor C m e) eqn:EF; cbn [negb] in S; [|apply (IH _ _ _ _ _ S)]. destruct so; [injection S as <- <-; apply grown_refl|].
  destruct (getPublicUID m i d); try (injection S as <- <-; apply grown_refl). destruct (match a with Some (_, pos) => pos =? i | None => false end); [apply (IH _ _ _ _ _ S)|].
  destruct (fetchStore C fetch m i e d) as [d1| |] eqn:F; try (injection S as <- <-; apply grown_refl).
  pose proof (fetchStore_grown _ _ _ _ _ _ _ _ _ EO EF F) as G. apply IH in S. apply grown_trans with d1; [exact G|].
  apply grown_weaken with (boundTo U C domain m d1); [|exact S]. intros u j. apply boundTo_same. apply G.
Qed.
Lemma lookupLoop_grown U C fetch m domain l : forall b d r d', lookupLoop U C fetch m domain l b d = (r, d') -> grown d d' (boundTo U C domain m d).
Proof.
  induction l as [|[i|] l IH]; intros b d r d' S; cbn [lookupLoop] in S; try (injection S as <- <-; apply grown_refl).
  destruct (do s <- chainEntry U domain i d; splitEntry s) as [e| |] eqn:EO; try (injection S as <- <-; apply grown_refl). apply entryOf in EO.
  destruct (negb (beq (hcTyp e) hcType)); [injection S as <- <-; apply grown_refl|].
  destruct (entryFor C m e) eqn:EF; cbn [negb] in S; [|injection S as <- <-; apply grown_refl].
  destruct (getPublicUID m i d); try (injection S as <- <-; apply grown_refl). destruct (match a with Some (_, pos) => pos =? i | None => false end); [apply (IH _ _ _ _ S)|].
  destruct (fetchStore C fetch m i e d) as [d1| |] eqn:F; try (injection S as <- <-; apply grown_refl).
  pose proof (fetchStore_grown _ _ _ _ _ _ _ _ _ EO EF F) as G. apply IH in S. apply grown_trans with d1; [exact G|].
  apply grown_weaken with (boundTo U C domain m d1); [|exact S]. intros u j. apply boundTo_same. apply G.
Qed.
