(* Properties of hash chains on the client: C38 entry codec, C39 tamper evidence,
   C40 synchronisation, C41 what a search or lookup stores, C78 hostile server answers. *)
From Verif Require Import Base Base64Model Base64Proofs CodecModel IdentityModel IdentityProofs JsonModel CryptoModel Maps StoreModel KeysModel HeaderModel HeaderProofs SqlModel SqlProofs KeyDBModel KeyDBProofs PropsKeyDB HashChainModel HashChainProofs.
Local Open Scope N_scope.

(* ------------------------------------------------------------------ *)
(* C38 *)
Theorem C38_split_spec : forall s e, splitEntry s = Ok e <->
  b64dec s = Some (hcHash e ++ hcTyp e ++ hcNonce e ++ hcHashID e ++ hcCrUID e ++ hcIndex e) /\
  lenN (hcHash e) = 32 /\ hcTyp e = [1] /\ lenN (hcNonce e) = 8 /\ lenN (hcHashID e) = 32 /\ lenN (hcCrUID e) = 48 /\ lenN (hcIndex e) = 32.
Proof.
  intros s e. split.
  - intros H. apply splitEntry_ok in H as (D & (L1 & L2 & L3 & L4 & L5 & L6) & T). auto 10.
  - intros (D & L1 & T & L3 & L4 & L5 & L6). apply splitEntry_join; [exact D| |exact T]. unfold hcLens. rewrite T. auto 10.
Qed.
Theorem C38_split_ok : forall s, splitEntry s <> Panic /\
  (is_ok (splitEntry s) = true <-> exists b, b64dec s = Some b /\ lenN b = 153 /\ nth_error b 32 = Some 1).
Proof.
  intros s. split.
  - unfold splitEntry. destruct (b64dec s); [|discriminate]. destruct (negb _); [discriminate|]. destruct (negb _); discriminate.
  - split.
    + intros H. destruct (splitEntry s) as [e| |] eqn:S; try discriminate. apply splitEntry_ok in S as (D & (L1 & L2 & L3 & L4 & L5 & L6) & T).
      exists (hcJoin e). split; [exact D|]. split; [unfold hcJoin; rewrite !lenN_app, L1, L2, L3, L4, L5, L6; reflexivity|].
      unfold hcJoin. rewrite T, nth_error_app2; unfold lenN in L1; [|lia]. replace (32 - length (hcHash e))%nat with 0%nat by lia. reflexivity.
    + intros (b & D & L & N1). unfold splitEntry. rewrite D, L. change (negb (153 =? EntryByteLen)) with false. cbn iota.
      assert (T : takeN 1 (dropN 32 b) = [1]).
      { apply nth_error_split in N1 as (l1 & l2 & -> & L'). rewrite dropN_app by (unfold lenN; lia). change (1 :: l2) with ([1] ++ l2). apply takeN_app. reflexivity. }
      rewrite T. reflexivity.
Qed.
Theorem C38_round_trip : forall h n i c x, lenN h = 32 -> lenN n = 8 -> lenN i = 32 -> lenN c = 48 -> lenN x = 32 -> wfb (h ++ [1] ++ n ++ i ++ c ++ x) ->
  splitEntry (b64enc (h ++ [1] ++ n ++ i ++ c ++ x)) = Ok (mkHC h [1] n i c x).
Proof.
  intros h n i c x L1 L2 L3 L4 L5 W. apply C38_split_spec. cbn [hcHash hcTyp hcNonce hcHashID hcCrUID hcIndex].
  rewrite b64dec_enc by exact W. auto 10.
Qed.
Example C38_ex : splitEntry (b64enc (repeat 7 32 ++ [1] ++ repeat 8 8 ++ repeat 9 32 ++ repeat 10 48 ++ repeat 11 32)) =
    Ok (mkHC (repeat 7 32) [1] (repeat 8 8) (repeat 9 32) (repeat 10 48) (repeat 11 32)) /\
  is_ok (splitEntry (b64enc (repeat 7 32 ++ [2] ++ repeat 8 120))) = false /\ is_ok (splitEntry (b64enc (repeat 1 152))) = false.
Proof. vm_compute. auto. Qed.

(* ------------------------------------------------------------------ *)
(* C39.  [hashedAt U domain d i x]: x is the byte string hashed for the entry at position i.
   Collision freeness is only assumed for the byte strings hashed in the two chains. *)
Theorem C39_tamper_evident : forall U C dom1 d1 m1 dom2 d2 m2 e1 e2,
  lastChainPos U dom1 d1 = Some m1 -> validateHashChain U C dom1 d1 = Ok tt -> entryAt U dom1 m1 d1 = Some e1 ->
  lastChainPos U dom2 d2 = Some m2 -> validateHashChain U C dom2 d2 = Ok tt -> entryAt U dom2 m2 d2 = Some e2 ->
  (forall i j x y, i <= m1 -> j <= m2 -> hashedAt U dom1 d1 i x -> hashedAt U dom2 d2 j y -> sha256 C x = sha256 C y -> x = y) ->
  hcHash e1 = hcHash e2 ->
  (m1 = m2 -> forall i, i <= m1 -> exists e, entryAt U dom1 i d1 = Some e /\ entryAt U dom2 i d2 = Some e) /\
  (* a chain of another length with the same last hash contains an entry whose hash is 32 zero bytes *)
  (m1 < m2 -> exists e, entryAt U dom2 (m2 - m1 - 1) d2 = Some e /\ hcHash e = repeat 0 32).
Proof.
  intros U C dom1 d1 m1 dom2 d2 m2 e1 e2 P1 V1 E1 P2 V2 E2 CF H.
  pose proof (validate_links U C dom1 d1 m1 P1 V1) as K1. pose proof (validate_links U C dom2 d2 m2 P2 V2) as K2.
  pose proof (chains_back U C dom1 d1 m1 dom2 d2 m2 K1 K2 CF) as B.
  assert (HH : forall e f, entryAt U dom1 m1 d1 = Some e -> entryAt U dom2 m2 d2 = Some f -> hcHash e = hcHash f) by (intros e f A1 A2; congruence).
  specialize (B HH). split.
  - intros <- i L. destruct (B (m1 - i)) as [X _]; try lia. replace (m1 - (m1 - i)) with i in X by lia.
    destruct (K1 i L) as (e & Ee & _). exists e. split; congruence.
  - intros L. destruct (B m1) as [_ X]; try lia. rewrite N.sub_diag in X. unfold prevAt in X. change (0 =? 0) with true in X. cbn iota in X.
    destruct (N.eqb_spec (m2 - m1) 0); [lia|]. destruct (K2 (m2 - m1 - 1)) as (e & Ee & _); [lia|]. rewrite Ee in X. exists e. auto.
Qed.
(* every single entry of a validated chain carries the hash of its content and of its predecessor's hash *)
Theorem C39_links : forall U C domain d max, lastChainPos U domain d = Some max -> validateHashChain U C domain d = Ok tt ->
  forall j, j <= max -> exists s e, chainEntry U domain j d = Ok s /\ splitEntry s = Ok e /\
    exists prev, hcHash e = sha256 C (hcTyp e ++ hcNonce e ++ hcHashID e ++ hcCrUID e ++ hcIndex e ++ prev) /\
      (j = 0 -> prev = repeat 0 32) /\
      (forall k, j = k + 1 -> exists sp ep, chainEntry U domain k d = Ok sp /\ splitEntry sp = Ok ep /\ prev = hcHash ep).
Proof.
  intros U C domain d max P V j L. pose proof (validate_links U C domain d max P V) as K.
  assert (X : forall i e, entryAt U domain i d = Some e -> exists s, chainEntry U domain i d = Ok s /\ splitEntry s = Ok e).
  { intros i e E. unfold entryAt in E. destruct (chainEntry U domain i d) as [s| |]; try discriminate. destruct (splitEntry s) eqn:S; try discriminate. exists s. split; congruence. }
  destruct (K j L) as (e & E & H). destruct (X j e E) as (s & S1 & S2). exists s, e. split; [exact S1|]. split; [exact S2|].
  exists (prevAt U domain j d). split; [exact H|]. split.
  - intros ->. reflexivity.
  - intros k ->. destruct (K k) as (ep & Ep & _); [lia|]. destruct (X k ep Ep) as (sp & Q1 & Q2). exists sp, ep. split; [exact Q1|]. split; [exact Q2|].
    unfold prevAt. destruct (N.eqb_spec (k + 1) 0); [lia|]. replace (k + 1 - 1) with k by lia. rewrite Ep. reflexivity.
Qed.
(* the entries the key server promised for the user's own UID messages are in the chain *)
Theorem C39_own_entries : forall U C domain d max id u r, lastChainPos U domain d = Some max -> validateHashChain U C domain d = Ok tt ->
  (exists ids, privIdentitiesForDomain U domain d = Ok ids /\ In id ids) -> getPrivateUID C id d = Ok (u, Some r) -> rpHCPos r <= max ->
  chainEntry U domain (rpHCPos r) d = Ok (rpHCEntry r).
Proof.
  intros U C domain d max id u r P V (ids & PI & I) G L. unfold validateHashChain in V. rewrite P in V.
  destruct (validateLoop _ _ _ _ _ _ _) as [[]| |] in V; cbn [rbind] in V; try discriminate. rewrite PI in V. cbn [rbind] in V. clear PI.
  induction ids as [|x ids IH]; [destruct I|]. cbn [checkReplies] in V. destruct (getPrivateUID C x d) as [[u' rep]| |] eqn:G'; cbn [rbind] in V; try discriminate.
  destruct I as [->|I].
  - rewrite G in G'. injection G' as <- <-. apply N.leb_le in L. rewrite L in V. destruct (chainEntry U domain (rpHCPos r) d) as [s| |]; cbn [rbind] in V; try discriminate.
    destruct (beq s (rpHCEntry r)) eqn:B; [|discriminate]. apply beq_spec in B. congruence.
  - apply IH; [|exact I]. destruct rep as [r0|]; [|exact V]. destruct (rpHCPos r0 <=? max); [|exact V].
    destruct (chainEntry U domain (rpHCPos r0) d) as [s0| |]; cbn [rbind] in V; try discriminate. destruct (beq s0 _); cbn [rbind] in V; [exact V|discriminate].
Qed.
(* a chain for the examples: entries with the given nonce byte, linked with the toy hash *)
Definition exEntry (prev : bytes) (hashID crUID index : bytes) : hcEntry :=
  let e := mkHC [] [1] (repeat 5 8) hashID crUID index in
  mkHC (sha256 toy (hcImage e prev)) [1] (repeat 5 8) hashID crUID index.
Definition bde := str "b.de".
Definition exE0 := exEntry (repeat 0 32) (repeat 1 32) (repeat 2 48) (repeat 3 32).
Definition exE1 := exEntry (hcHash exE0) (repeat 4 32) (repeat 2 48) (repeat 3 32).
Definition exChainDB : keydb := krun goUnicode [KAddChainEntry bde 0 (b64enc (hcJoin exE0)); KAddChainEntry bde 1 (b64enc (hcJoin exE1))] emptyKDB.
Definition exBadDB : keydb := krun goUnicode [KAddChainEntry bde 0 (b64enc (hcJoin exE1)); KAddChainEntry bde 1 (b64enc (hcJoin exE0))] emptyKDB.
Example C39_ex : lastChainPos goUnicode bde exChainDB = Some 1 /\ validateHashChain goUnicode toy bde exChainDB = Ok tt /\
  entryAt goUnicode bde 1 exChainDB = Some exE1 /\ is_ok (validateHashChain goUnicode toy bde exBadDB) = false.
Proof. vm_compute. auto. Qed.

(* ------------------------------------------------------------------ *)
(* C40.  Full statement (false): if synchronisation succeeds, every position up to the reported one is present.
   A server that answers with a later first position leaves a gap. *)
Theorem C40_refuted : exists U domain last fetch d' pos, syncHashChain U domain (Ok last) fetch emptyKDB = (Ok tt, d') /\ lrPos last = Some pos /\
  is_ok (chainEntry U domain 0 d') = false /\ 0 <= pos.
Proof.
  exists goUnicode, bde, (mkLast (Some (str "e")) (Some 1)), (fun _ _ => Ok (mkChainRep (Some [Some (str "e")]) (Some 1))).
  eexists. exists 1. split; [vm_compute; reflexivity|]. vm_compute. repeat split; discriminate.
Qed.
(* an error of the database is reported as success *)
Theorem C40_error_refuted : exists U domain last fetch d', syncHashChain U domain (Ok last) fetch emptyKDB = (Ok tt, d') /\
  lrPos last = Some (2 ^ 63) /\ (forall p, is_ok (chainEntry U domain p d') = false).
Proof.
  exists goUnicode, bde, (mkLast (Some (str "e")) (Some (2 ^ 63))), (fun _ _ => Ok (mkChainRep (Some [Some (str "e")]) (Some (2 ^ 63)))), emptyKDB.
  split; [vm_compute; reflexivity|]. split; [reflexivity|]. intros p. unfold chainEntry. destruct (negb _); reflexivity.
Qed.
(* whatever the server answers, and whether or not synchronisation fails, known entries stay as they are *)
Theorem C40_known_unchanged : forall U ops domain last fetch r d' dom2 p s, let d := krun U ops emptyKDB in
  syncHashChain U domain last fetch d = (r, d') -> chainEntry U dom2 p d = Ok s -> chainEntry U dom2 p d' = Ok s.
Proof.
  intros U ops domain last fetch r d' dom2 p s d S E. assert (I : idsOk (kChain d)) by (apply chain_ids, idsOk_nil).
  unfold syncHashChain in S. destruct last as [l| |]; try (injection S as <- <-; exact E). destruct (lrEntry l); [|injection S as <- <-; exact E].
  destruct (lrPos l) as [hp|]; [|injection S as <- <-; exact E].
  assert (G : forall start, match fetch start hp with
      | Err e => (Err e, d) | Panic => (Panic, d)
      | Ok r0 => match crEntries r0 with None => (Err "cryptengine: fetch hash chain entries reply has the wrong type", d)
          | Some es => match crFirst r0 with None => (Panic, d) | Some first => storeEntries U domain first hp es d end end end = (r, d') -> chainEntry U dom2 p d' = Ok s).
  { intros start. destruct (fetch start hp) as [cr| |]; try (intros X; injection X as <- <-; exact E).
    destruct (crEntries cr); [|intros X; injection X as <- <-; exact E]. destruct (crFirst cr); [|intros X; injection X as <- <-; exact E].
    intros X. apply (storeEntries_keep _ _ _ _ _ _ _ _ I X). exact E. }
  destruct (lastChainPos U domain d) as [pos|]; [destruct (hp <=? pos); [injection S as <- <-; exact E|]|]; apply G in S; exact S.
Qed.
(* Missing from C40: positions of 2^63 and more, answers that start later than asked, and local copies that
   already have gaps.  Without those, success means completeness, and the new entries are the server's. *)
Theorem C40_partial : forall U ops domain last fetch d' pos, let d := krun U ops emptyKDB in
  syncHashChain U domain (Ok last) fetch d = (Ok tt, d') -> lrPos last = Some pos -> pos < 2 ^ 63 ->
  (forall s cr f, fetch s pos = Ok cr -> crFirst cr = Some f -> f <= s) ->
  (forall m p, lastChainPos U domain d = Some m -> p <= m -> is_ok (chainEntry U domain p d) = true) ->
  forall p, p <= pos -> exists s, chainEntry U domain p d' = Ok s /\
    (is_ok (chainEntry U domain p d) = false -> exists start cr es f, fetch start pos = Ok cr /\ crEntries cr = Some es /\ crFirst cr = Some f /\
       nth_error es (N.to_nat (p - f)) = Some (Some s)).
Proof.
  intros U ops domain last fetch d' pos d S LP B HF HL p L. assert (I : idsOk (kChain d)) by (apply chain_ids, idsOk_nil).
  pose proof (C40_known_unchanged U ops domain (Ok last) fetch (Ok tt) d' domain p) as KU. cbv zeta in KU. fold d in KU.
  destruct (chainEntry U domain p d) as [s| |] eqn:CE; [exists s; split; [apply KU; auto|discriminate]| |].
  all: clear KU; unfold syncHashChain in S; destruct (lrEntry last); [|discriminate]; rewrite LP in S.
  all: assert (G : forall start, start <= p -> match fetch start pos with
      | Err e => (Err e, d) | Panic => (Panic, d)
      | Ok r0 => match crEntries r0 with None => (Err "cryptengine: fetch hash chain entries reply has the wrong type", d)
          | Some es => match crFirst r0 with None => (Panic, d) | Some first => storeEntries U domain first pos es d end end end = (Ok tt, d') ->
      exists s, chainEntry U domain p d' = Ok s /\ exists start cr es f, fetch start pos = Ok cr /\ crEntries cr = Some es /\ crFirst cr = Some f /\
         nth_error es (N.to_nat (p - f)) = Some (Some s))
    by (intros start LS X; destruct (fetch start pos) as [cr| |] eqn:F; try discriminate X; destruct (crEntries cr) as [es|] eqn:CRE; [|discriminate X];
        destruct (crFirst cr) as [f|] eqn:CF; [|discriminate X]; pose proof (HF _ _ _ F CF);
        destruct (storeEntries_full _ _ _ _ B _ _ _ I X p) as (s & E1 & E2); try lia; exists s; split; [exact E1|]; exists start, cr, es, f;
        repeat split; try assumption; apply E2; rewrite CE; reflexivity).
  all: destruct (lastChainPos U domain d) as [m|] eqn:LM.
  all: try (specialize (HL m p eq_refl); rewrite CE in HL; cbn [is_ok] in HL; assert (m < p) by (destruct (N.le_gt_cases p m) as [X|X]; [specialize (HL X); discriminate|exact X]);
    destruct (N.leb_spec pos m); [lia|]; destruct (G (m + 1)) as (s & E1 & E2); [lia|exact S|exists s; split; [exact E1|intros _; exact E2]]).
  all: destruct (G 0) as (s & E1 & E2); [lia|exact S|exists s; split; [exact E1|intros _; exact E2]].
Qed.
Example C40_ex : exists d', syncHashChain goUnicode bde (Ok (mkLast (Some (str "e")) (Some 2))) (fun _ _ => Ok (mkChainRep (Some [Some (str "e")]) (Some 2))) exChainDB = (Ok tt, d') /\
  chainEntry goUnicode bde 2 d' = Ok (str "e") /\ chainEntry goUnicode bde 1 d' = chainEntry goUnicode bde 1 exChainDB /\ is_ok (chainEntry goUnicode bde 0 exChainDB) = true.
Proof. eexists. vm_compute. auto. Qed.

(* ------------------------------------------------------------------ *)
(* C41.  Full statement (false): a search or lookup that succeeds stores a UID message of the identity asked for.
   Here the key server of b.de answers a request for ann@b.de with a first message of keyserver@c.de, signed with its
   own key: the client accepts it as the signature key of the key server of another domain, and reports success. *)
Definition annb := str "ann@b.de".
Definition evilUid : uidMsg := exUid (str "keyserver@c.de") 0.
Definition evilHash : bytes := repeat 0 32.
Definition evilIndex : bytes := repeat 0 32.
Definition evilIV : bytes := repeat 0 16.
Definition evilEntry : hcEntry :=
  exEntry (repeat 0 32) (sha256 toy (fst (ckdf toy (repeat 5 8)) ++ annb))
    (evilIV ++ cbcenc toy (sha256 toy (snd (ckdf toy (repeat 5 8)) ++ annb)) evilIV evilHash) evilIndex.
Definition evilReply : uidReply :=
  mkReply (b64enc (evilIndex ++ evilIV ++ xorb (uidJSON evilUid) (ctr toy evilHash evilIV (lenN (uidJSON evilUid))))) [] 0 [].
Definition evilDB : keydb := krun goUnicode [KAddChainEntry bde 0 (b64enc (hcJoin evilEntry))] emptyKDB.
Definition evilFetch (_ : bytes) : res uidReply := Ok evilReply.
Theorem C41_refuted : exists U C id fetch d, validateHashChain U C bde d = Ok tt /\ id = annb /\
  fst (searchHashChain U C id false fetch d) = Ok tt /\
  map (fun r => pbIdentity (snd r)) (kPub (snd (searchHashChain U C id false fetch d))) = [str "keyserver@c.de"] /\
  fst (lookupHashChain U C id (fun _ => Ok (Some [Some 0])) fetch d) = Ok tt /\
  map (fun r => pbIdentity (snd r)) (kPub (snd (lookupHashChain U C id (fun _ => Ok (Some [Some 0])) fetch d))) = [str "keyserver@c.de"].
Proof.
  exists goUnicode, toy, annb, evilFetch, evilDB. vm_compute. repeat split; reflexivity.
Qed.
(* What is guaranteed: whatever the server answers and whatever the outcome, each message a search or lookup stores
   carries a valid self-signature, is filed under the position of an entry made for the identity asked for,
   and hashes to the index of that entry, unless it is a first message of some key server. *)
Theorem C41_search_bound : forall U C id so fetch d r d' mappedID domain, mapPlus U id = Ok (mappedID, domain) ->
  searchHashChain U C id so fetch d = (r, d') ->
  exists l, map snd (kPub d') = map snd (kPub d) ++ map pubRowOf l /\
    forall u i, In (u, i) l -> exists s e, chainEntry U domain i d = Ok s /\ splitEntry s = Ok e /\
      hcHashID e = sha256 C (fst (ckdf C (hcNonce e)) ++ mappedID) /\ verifySelfSig C u = Ok tt /\
      (firstKeyserver u \/ sha256 C (sha256 C (uidJSON u)) = hcIndex e).
Proof.
  intros U C id so fetch d r d' m domain MP S. unfold searchHashChain in S. rewrite MP in S.
  assert (G : grown d d' (boundTo U C domain m d)).
  { destruct (lastChainPos U domain d); [apply searchLoop_grown in S; exact S|injection S as <- <-; apply grown_refl]. }
  destruct G as [_ (l & E & H)]. exists l. split; [exact E|]. intros u i I. destruct (H u i I) as (e & EA & EF & SS & B).
  unfold entryAt in EA. destruct (chainEntry U domain i d) as [s| |]; try discriminate. destruct (splitEntry s) as [e'| |] eqn:SE; try discriminate. injection EA as <-.
  exists s, e'. apply beq_spec in EF. auto 10.
Qed.
Theorem C41_lookup_bound : forall U C id positions fetch d r d' mappedID domain, mapPlus U id = Ok (mappedID, domain) ->
  lookupHashChain U C id positions fetch d = (r, d') ->
  exists l, map snd (kPub d') = map snd (kPub d) ++ map pubRowOf l /\
    forall u i, In (u, i) l -> exists s e, chainEntry U domain i d = Ok s /\ splitEntry s = Ok e /\
      hcHashID e = sha256 C (fst (ckdf C (hcNonce e)) ++ mappedID) /\ verifySelfSig C u = Ok tt /\
      (firstKeyserver u \/ sha256 C (sha256 C (uidJSON u)) = hcIndex e).
Proof.
  intros U C id pos fetch d r d' m domain MP S. unfold lookupHashChain in S. rewrite MP in S.
  assert (G : grown d d' (boundTo U C domain m d)).
  { destruct (pos m) as [[l|]| |]; [apply lookupLoop_grown in S; exact S|injection S as <- <-; apply grown_refl..]. }
  destruct G as [_ (l & E & H)]. exists l. split; [exact E|]. intros u i I. destruct (H u i I) as (e & EA & EF & SS & B).
  unfold entryAt in EA. destruct (chainEntry U domain i d) as [s| |]; try discriminate. destruct (splitEntry s) as [e'| |] eqn:SE; try discriminate. injection EA as <-.
  exists s, e'. apply beq_spec in EF. auto 10.
Qed.
(* Consequence: if every entry made for the identity commits to a UID message of that identity, then a stored message
   is of that identity, or it is a first key server message, or it is a second preimage of a committed index. *)
Theorem C41_partial : forall U C id so fetch d r d' mappedID domain, mapPlus U id = Ok (mappedID, domain) ->
  searchHashChain U C id so fetch d = (r, d') ->
  (forall i s e, chainEntry U domain i d = Ok s -> splitEntry s = Ok e -> hcHashID e = sha256 C (fst (ckdf C (hcNonce e)) ++ mappedID) ->
     exists u0, uidWf u0 /\ uIdentity u0 = mappedID /\ hcIndex e = sha256 C (sha256 C (uidJSON u0))) ->
  exists l, map snd (kPub d') = map snd (kPub d) ++ map pubRowOf l /\
    forall u i, In (u, i) l -> uidWf u -> uIdentity u = mappedID \/ firstKeyserver u \/
      exists u0, uIdentity u0 = mappedID /\ uidJSON u <> uidJSON u0 /\ sha256 C (sha256 C (uidJSON u)) = sha256 C (sha256 C (uidJSON u0)).
Proof.
  intros U C id so fetch d r d' m domain MP S HC. destruct (C41_search_bound _ _ _ _ _ _ _ _ _ _ MP S) as (l & E & H).
  exists l. split; [exact E|]. intros u i I W. destruct (H u i I) as (s & e & S1 & S2 & S3 & _ & [K|X]); [auto|].
  destruct (HC _ _ _ S1 S2 S3) as (u0 & W0 & I0 & X0). destruct (list_eq_dec N.eq_dec (uidJSON u) (uidJSON u0)) as [EQ|NE].
  - left. assert (A : newJSONUid (uidJSON u) = newJSONUid (uidJSON u0)) by congruence. rewrite !newJSONUid_JSON in A by assumption. assert (u = u0) by (injection A; auto). congruence.
  - right. right. exists u0. split; [exact I0|]. split; [exact NE|]. congruence.
Qed.
(* an honest server: the entry commits to ann's message; the key server's own first message is known *)
Definition goodUid : uidMsg := exUid annb 0.
Definition goodHash := uidHash toy goodUid.
Definition goodIndex := uidIndex toy goodUid.
Definition goodEntry : hcEntry :=
  exEntry (repeat 0 32) (sha256 toy (fst (ckdf toy (repeat 5 8)) ++ annb))
    (evilIV ++ cbcenc toy (sha256 toy (snd (ckdf toy (repeat 5 8)) ++ annb)) evilIV goodHash) goodIndex.
Definition goodEnc : bytes := b64enc (goodIndex ++ evilIV ++ xorb (uidJSON goodUid) (ctr toy goodHash evilIV (lenN (uidJSON goodUid)))).
Definition goodReply : uidReply := mkReply goodEnc [] 0 (b64enc (edsign toy [1] (entryJSON (mkReply goodEnc [] 0 [])))).
Definition goodDB : keydb := krun goUnicode [KAddChainEntry bde 0 (b64enc (hcJoin goodEntry)); KAddPublicUID (exUid (str "keyserver@b.de") 0) 0] emptyKDB.
Example C41_ex : mapPlus goUnicode annb = Ok (annb, bde) /\ fst (searchHashChain goUnicode toy annb false (fun _ => Ok goodReply) goodDB) = Ok tt /\
  map (fun r => pbIdentity (snd r)) (kPub (snd (searchHashChain goUnicode toy annb false (fun _ => Ok goodReply) goodDB))) = [str "keyserver@b.de"; annb].
Proof. vm_compute. auto. Qed.

(* ------------------------------------------------------------------ *)
(* C78.  Full statement (false): no answer of a key server makes the client panic. *)
(* the answer to FetchLastHashChain lacks its position *)
Theorem C78_sync_refuted : exists U domain last fetch d, fst (syncHashChain U domain (Ok last) fetch d) = Panic /\ (forall s e, fetch s e <> Panic).
Proof.
  exists goUnicode, bde, (mkLast (Some (str "e")) None), (fun _ _ => Err "offline"), emptyKDB. split; [reflexivity|discriminate].
Qed.
(* fewer entries than announced *)
Theorem C78_short_refuted : exists U domain last fetch d, fst (syncHashChain U domain (Ok last) fetch d) = Panic /\ (forall s e, fetch s e <> Panic) /\
  lrPos last = Some 1 /\ forall s e, fetch s e = Ok (mkChainRep (Some [Some (str "e")]) (Some 0)).
Proof.
  exists goUnicode, bde, (mkLast (Some (str "e")) (Some 1)), (fun _ _ => Ok (mkChainRep (Some [Some (str "e")]) (Some 0))), emptyKDB.
  split; [vm_compute; reflexivity|]. split; [discriminate|]. split; reflexivity.
Qed.
(* the encrypted UID message is too short *)
Theorem C78_search_refuted : exists U C id fetch d, validateHashChain U C bde d = Ok tt /\ fst (searchHashChain U C id false fetch d) = Panic /\ (forall x, fetch x <> Panic).
Proof.
  exists goUnicode, toy, annb, (fun _ => Ok (mkReply (b64enc [1; 2; 3]) [] 0 [])), evilDB. split; [vm_compute; reflexivity|]. split; [vm_compute; reflexivity|]. discriminate.
Qed.
(* Missing from C78: the cases above.  When positions are present, and as many entries as announced, synchronising does not panic. *)
Lemma storeEntries_no_panic U domain hcPos es : forall i d, hcPos < i + lenN es -> fst (storeEntries U domain i hcPos es d) <> Panic.
Proof.
  induction es as [|e es IH]; intros i d L; cbn [storeEntries]; destruct (N.ltb_spec hcPos i); try discriminate.
  - unfold lenN in L. cbn in L. lia.
  - destruct e as [e|]; [|discriminate]. destruct (addChainEntry U domain i e d); try discriminate. apply IH.
    unfold lenN in *. cbn [length] in L. lia.
Qed.
Theorem C78_sync_partial : forall U domain last fetch d, last <> Panic -> (forall s e, fetch s e <> Panic) ->
  (forall l, last = Ok l -> lrPos l <> None) ->
  (forall s e r, fetch s e = Ok r -> exists es f, crEntries r = Some es /\ crFirst r = Some f /\ e < f + lenN es) ->
  fst (syncHashChain U domain last fetch d) <> Panic.
Proof.
  intros U domain last fetch d NP NF HP HF. unfold syncHashChain. destruct last as [l| |]; [|discriminate|congruence].
  destruct (lrEntry l); [|discriminate]. destruct (lrPos l) as [hp|] eqn:LP; [|elim (HP l eq_refl LP)].
  assert (G : forall start, fst (match fetch start hp with
      | Err e => (Err e, d) | Panic => (Panic, d)
      | Ok r0 => match crEntries r0 with None => (Err "cryptengine: fetch hash chain entries reply has the wrong type", d)
          | Some es => match crFirst r0 with None => (Panic, d) | Some first => storeEntries U domain first hp es d end end end) <> Panic).
  { intros start. destruct (fetch start hp) as [cr| |] eqn:F; [|discriminate|elim (NF _ _ F)]. destruct (HF _ _ _ F) as (es & f & -> & -> & L). apply storeEntries_no_panic, L. }
  destruct (lastChainPos U domain d) as [pos|]; [destruct (hp <=? pos); [discriminate|]|]; apply G.
Qed.
(* Searching and looking up panic only if the server's answer is too short to decrypt (or the entry was made with a
   ciphertext under which it becomes so), or the identity in an accepted self-signed message cannot be split. *)
Lemma np_bind {A B} (m : res A) (f : A -> res B) : m <> Panic -> (forall x, m = Ok x -> f x <> Panic) -> rbind m f <> Panic.
Proof. destruct m; cbn [rbind]; auto; discriminate. Qed.
Lemma np_chainEntry U domain i d : chainEntry U domain i d <> Panic.
Proof. unfold chainEntry. destruct (negb _); [discriminate|]. destruct (tmin _ _) as [[? ?]|]; discriminate. Qed.
Lemma np_newJSONUid s : newJSONUid s <> Panic.
Proof. unfold newJSONUid. destruct (jparse s) as [v|]; [|discriminate]. destruct (uidOfJson v); discriminate. Qed.
Lemma np_getPublicUID id p d : getPublicUID id p d <> Panic.
Proof. unfold getPublicUID. destruct (negb _); [discriminate|]. destruct (tmax _ _ _) as [[? ?]|]; [|discriminate]. apply np_bind; [apply np_newJSONUid|discriminate]. Qed.
Lemma np_verifySelfSig C u : verifySelfSig C u <> Panic.
Proof. unfold verifySelfSig. destruct (b64dec _); [|discriminate]. destruct (b64dec _); [|discriminate]. destruct (negb _); [discriminate|]. destruct (edverify _ _ _ _); discriminate. Qed.
Lemma np_replyDecrypt C r h : lenN h = 32 -> (forall b, b64dec (rpEnc r) = Some b -> 48 <= lenN b) -> replyDecrypt C r h <> Panic.
Proof.
  intros L H. unfold replyDecrypt. destruct (b64dec (rpEnc r)) as [b|]; [|discriminate]. specialize (H b eq_refl).
  destruct (N.ltb_spec (lenN b) 32); [lia|]. apply np_bind.
  - unfold ctrDecrypt. rewrite L, lenN_dropN. change (negb (32 =? 32)) with false. cbn iota. destruct (N.ltb_spec (lenN b - 32) 16); [lia|discriminate].
  - intros m _. apply np_bind; [apply np_newJSONUid|discriminate].
Qed.
Lemma np_fetchStore C fetch m i e d : hcLens e -> (forall x, fetch x <> Panic) ->
  (forall x r, fetch x = Ok r -> forall b, b64dec (rpEnc r) = Some b -> 48 <= lenN b) ->
  (forall x r h idx u, fetch x = Ok r -> replyDecrypt C r h = Ok (idx, u) -> is_ok (split (uIdentity u)) = true) ->
  fetchStore C fetch m i e d <> Panic.
Proof.
  intros (_ & _ & _ & _ & L5 & _) NF HL HS. unfold fetchStore. apply np_bind; [apply NF|]. intros r F. 
  assert (LD : lenN (dropN 16 (hcCrUID e)) = 32) by (rewrite lenN_dropN, L5; reflexivity).
  assert (CD : cbcDecrypt C (sha256 C (snd (ckdf C (hcNonce e)) ++ m)) (hcCrUID e) = Ok (cbcdec C (sha256 C (snd (ckdf C (hcNonce e)) ++ m)) (takeN 16 (hcCrUID e)) (dropN 16 (hcCrUID e)))).
  { unfold cbcDecrypt. rewrite sha256_len, L5, LD. reflexivity. }
  rewrite CD. cbn [rbind]. apply np_bind; [apply np_replyDecrypt; [rewrite cbcdec_len; exact LD|apply (HL _ _ F)]|].
  intros [idx u] RD. destruct (negb _); [discriminate|]. apply np_bind; [apply np_verifySelfSig|]. intros _ _. apply np_bind.
  - unfold verifyServerSig, uidSplit. pose proof (HS _ _ _ _ _ F RD) as SP. destruct (split (uIdentity u)) as [[lp dm]| |]; try discriminate. cbn [rbind].
    destruct (_ && _); [discriminate|]. apply np_bind; [apply np_getPublicUID|]. intros [[srv ?]|] _; [|discriminate]. unfold verifySrvSig.
    apply np_bind; [apply np_replyDecrypt; [apply sha256_len|apply (HL _ _ F)]|]. intros [? ?] _. destruct (negb _); [discriminate|].
    destruct (b64dec _); [|discriminate]. destruct (b64dec _); [|discriminate]. destruct (negb _); [discriminate|]. destruct (edverify _ _ _ _); discriminate.
  - intros _ _. unfold addPublicUID. destruct (negb _); discriminate.
Qed.
Lemma np_mapPlus U id : mapPlus U id <> Panic.
Proof.
  unfold mapPlus. destruct (_ <? _); [discriminate|]. apply np_bind; [unfold split; repeat (match goal with |- match ?x with _ => _ end <> _ => destruct x end); discriminate|].
  intros [lp dm] _. apply np_bind; [|discriminate]. unfold mapLocalpart. match goal with |- context [utf8len ?x <? 3] => destruct x as [|c l] end; [discriminate|].
  repeat (match goal with |- (if ?x then _ else _) <> _ => destruct x end; try discriminate).
  match goal with |- match ?x with _ => _ end <> _ => destruct x as [y|]; [|discriminate] end. destruct (_ <? _); discriminate.
Qed.
(* Searching and looking up do not panic if every encrypted message the server sends is long enough to be decrypted,
   and no message it sends has an identity without exactly one '@'. *)
Theorem C78_search_partial : forall U C id so fetch d, (forall x, fetch x <> Panic) ->
  (forall x r, fetch x = Ok r -> forall b, b64dec (rpEnc r) = Some b -> 48 <= lenN b) ->
  (forall x r h idx u, fetch x = Ok r -> replyDecrypt C r h = Ok (idx, u) -> is_ok (split (uIdentity u)) = true) ->
  fst (searchHashChain U C id so fetch d) <> Panic.
Proof.
  intros U C id so fetch d NF HL HS. unfold searchHashChain. pose proof (np_mapPlus U id) as MP. destruct (mapPlus U id) as [[m domain]| |]; [|discriminate|congruence].
  destruct (lastChainPos U domain d) as [max|]; [|discriminate]. generalize (N.to_nat (max + 1)). intros n. generalize 0, false. revert d.
  induction n as [|n IH]; intros d i b; cbn [searchLoop]; [destruct b; discriminate|].
  destruct (do s <- chainEntry U domain i d; splitEntry s) as [e| |] eqn:EO; [|discriminate|].
  2: { exfalso. revert EO. apply np_bind; [apply np_chainEntry|]. intros s _. apply C38_split_ok. }
  apply entryOf in EO. apply entryAt_lens in EO. destruct (negb _); [discriminate|]. destruct (negb _); [apply IH|]. destruct so; [discriminate|].
  pose proof (np_getPublicUID m i d) as GP. destruct (getPublicUID m i d); [|discriminate|congruence]. destruct (match a with Some (_, pos) => pos =? i | None => false end); [apply IH|].
  pose proof (np_fetchStore C fetch m i e d EO NF HL HS) as FP. destruct (fetchStore C fetch m i e d); [apply IH|discriminate|congruence].
Qed.
Theorem C78_lookup_partial : forall U C id positions fetch d, (forall x, positions x <> Panic) -> (forall x, fetch x <> Panic) ->
  (forall x r, fetch x = Ok r -> forall b, b64dec (rpEnc r) = Some b -> 48 <= lenN b) ->
  (forall x r h idx u, fetch x = Ok r -> replyDecrypt C r h = Ok (idx, u) -> is_ok (split (uIdentity u)) = true) ->
  fst (lookupHashChain U C id positions fetch d) <> Panic.
Proof.
  intros U C id positions fetch d NP NF HL HS. unfold lookupHashChain. pose proof (np_mapPlus U id) as MP. destruct (mapPlus U id) as [[m domain]| |]; [|discriminate|congruence].
  specialize (NP m). destruct (positions m) as [[l|]| |]; try discriminate; [|congruence]. clear NP. generalize false. revert d.
  induction l as [|[i|] l IH]; intros d b; cbn [lookupLoop]; [destruct b; discriminate| |discriminate].
  destruct (do s <- chainEntry U domain i d; splitEntry s) as [e| |] eqn:EO; [|discriminate|].
  2: { exfalso. revert EO. apply np_bind; [apply np_chainEntry|]. intros s _. apply C38_split_ok. }
  apply entryOf in EO. apply entryAt_lens in EO. destruct (negb _); [discriminate|]. destruct (negb _); [discriminate|].
  pose proof (np_getPublicUID m i d) as GP. destruct (getPublicUID m i d); [|discriminate|congruence]. destruct (match a with Some (_, pos) => pos =? i | None => false end); [apply IH|].
  pose proof (np_fetchStore C fetch m i e d EO NF HL HS) as FP. destruct (fetchStore C fetch m i e d); [apply IH|discriminate|congruence].
Qed.
Example C78_ex : forall b, b64dec (rpEnc goodReply) = Some b -> 48 <= lenN b.
Proof. intros b H. apply N.leb_le. assert (X : (match b64dec (rpEnc goodReply) with Some b => 48 <=? lenN b | None => true end) = true) by (vm_compute; reflexivity). rewrite H in X. exact X. Qed.

Print Assumptions C38_split_spec.
Print Assumptions C38_split_ok.
Print Assumptions C38_round_trip.
Print Assumptions C39_tamper_evident.
Print Assumptions C39_links.
Print Assumptions C39_own_entries.
Print Assumptions C40_refuted.
Print Assumptions C40_error_refuted.
Print Assumptions C40_known_unchanged.
Print Assumptions C40_partial.
Print Assumptions C41_refuted.
Print Assumptions C41_search_bound.
Print Assumptions C41_lookup_bound.
Print Assumptions C41_partial.
Print Assumptions C78_sync_refuted.
Print Assumptions C78_short_refuted.
Print Assumptions C78_search_refuted.
Print Assumptions C78_sync_partial.
Print Assumptions C78_search_partial.
Print Assumptions C78_lookup_partial.
