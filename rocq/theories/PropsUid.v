(* Properties of identities and KeyInit messages: C106 to C121. *)
From Verif Require Import Base Base64Model Base64Proofs CodecModel CodecProofs IdentityModel IdentityProofs JsonModel JsonProofs CryptoModel Maps StoreModel KeysModel KeysProofs HeaderModel HeaderProofs SqlModel SqlProofs KeyDBModel KeyDBProofs HashChainModel HashChainProofs ProtoProofs UidModel UidProofs.
Local Open Scope N_scope.

(* values for the examples *)
Definition xAnn : bytes := str "ann@b.de".
Definition xBob : bytes := str "bob@b.de".
Definition xEntry : bytes := b64enc (repeat 0 32 ++ [1] ++ repeat 0 120).
Definition xLast : bytes -> res bytes := fun _ => Ok xEntry.
Definition xS1 : bytes := repeat 1 64. Definition xS2 : bytes := repeat 2 64. Definition xE1 : bytes := repeat 3 32. Definition xE2 : bytes := repeat 4 32.
Definition xIV : bytes := repeat 7 16.

(* ------------------------------------------------------------------ *)
(* C106: a new identity is accepted by everyone who checks it, and its public keys belong to the private keys. *)
Theorem C106_created_accepted : forall U C id mix nym le yl sp ep xp i, create U C id false mix nym 1 le yl sp ep xp = Ok i ->
  yl < 2 ^ 64 -> lenN sp = 64 -> wfb sp -> lenN ep = 32 -> wfb ep ->
  check U (idUid i) = Ok tt /\ verifySelfSig C (idUid i) = Ok tt /\ uIdentity (idUid i) = id /\ newJSONUid (uidJSON (idUid i)) = Ok (idUid i) /\
  idSigPriv i = Some sp /\ b64dec (kePub (uSigKey (idUid i))) = Some (edpub C sp) /\ b64dec (keHash (uSigKey (idUid i))) = Some (sha512 C (edpub C sp)) /\
  idEncPriv i = Some ep /\ exists k, uPubKeys (idUid i) = [k] /\ keVerify C k = Ok tt /\ b64dec (kePub k) = Some (dhpub C ep).
Proof.
  intros U C id mix nym le yl sp ep xp i H Y L1 W1 L2 W2. destruct (create_good U C id mix nym le yl sp ep xp i H Y L1 W1 L2 W2) as (G & I & _).
  split; [apply G|]. split; [apply G|]. split; [exact I|]. split; [apply newJSONUid_JSON, G|]. split; [apply G|]. rewrite (gi_sk _ _ _ _ _ G).
  split; [apply b64dec_enc, edpub_wf|]. split; [apply b64dec_enc, sha512_wf|]. split; [apply G|].
  exists (initDHKey C ep). split; [apply G|]. split; [apply initDHKey_verify|]. apply b64dec_enc, dhpub_wf.
Qed.
(* Create succeeds for every mapped identity with a hash chain entry that can be parsed. *)
Theorem C106_create_total : forall U C id esc mix nym pfs le yl sp ep xp, isMapped U id = true -> is_ok (splitEntry le) = true -> pfs <= 2 ->
  is_ok (create U C id esc mix nym pfs le yl sp ep xp) = true.
Proof.
  intros U C id esc mix nym pfs le yl sp ep xp M L P. unfold create. rewrite M. cbn [negb]. destruct (isMapped_split U id M) as (lp & dmn & ->).
  destruct (splitEntry le); try discriminate. replace (if beq lp keyserver then Ok tt else _) with (Ok tt : res unit) by (destruct (beq lp keyserver); reflexivity).
  cbn [rbind]. assert (E : pfs = 0 \/ pfs = 1 \/ pfs = 2) by lia. destruct E as [-> |[-> | ->]]; reflexivity.
Qed.
(* What version 1.0 accepts of what Create can make: strict forward secrecy without an escrow key, nothing else. *)
Theorem C106_accepted_iff : forall U C id esc mix nym pfs le yl sp ep xp i, create U C id esc mix nym pfs le yl sp ep xp = Ok i ->
  (check U (idUid i) = Ok tt <-> pfs = 1 /\ esc = false).
Proof.
  intros U C id esc mix nym pfs le yl sp ep xp i H. apply create_ok in H as (lp & dmn & fs & M & S & LE & P & E). cbv zeta in E. rewrite E. clear E i.
  assert (E : (pfs = 0 /\ fs = str "mandatory") \/ (pfs = 1 /\ fs = str "strict") \/ (pfs = 2 /\ fs = str "optional")).
  { unfold pfsString in P. destruct (N.eqb_spec pfs 0); [injection P as <-; auto|]. destruct (N.eqb_spec pfs 1); [injection P as <-; auto|]. destruct (N.eqb_spec pfs 2); [injection P as <-; auto|discriminate]. }
  assert (LE' : (if beq lp keyserver then Ok tt else (do _ <- splitEntry le; Ok tt)) = (Ok tt : res unit))
    by (destruct LE as [->|LE]; [reflexivity|destruct (beq lp keyserver); [reflexivity|destruct (splitEntry le); [reflexivity|discriminate|discriminate]]]).
  destruct E as [[-> ->]|[[-> ->]|[-> ->]]].
  - split; [|intros [X _]; discriminate]. intros X. exfalso. revert X. unfold check. cbn [idUid setSelfSig uVersion uFwdSec uMix uNym uIdentity uSigKey uLastEntry uEscrowSig uUserSig initSigKey keSuite keFunc].
    change (0 =? 2) with false. cbn iota. rewrite !beq_refl, M, S. cbn [negb andb]. rewrite andb_false_r, LE'. cbn [rbind]. discriminate.
  - change (1 =? 2) with false. cbn iota. unfold check. cbn [idUid setSelfSig uVersion uFwdSec uMix uNym uIdentity uSigKey uLastEntry uEscrowSig uUserSig initSigKey keSuite keFunc].
    rewrite !beq_refl, M, S. cbn [negb andb]. rewrite andb_false_r, LE'. cbn [rbind].
    unfold checkV1. cbn [setSelfSig uFwdSec uPubKeys uEscrow uIdentity uRepoURIs uChain initDHKey keSuite keFunc]. rewrite S, !beq_refl. cbn [negb].
    destruct esc; [split; [discriminate|intros [_ X]; discriminate]|]. split; auto.
  - split; [|intros [X _]; discriminate]. intros X. exfalso. revert X. unfold check. cbn [idUid setSelfSig uVersion uFwdSec uMix uNym uIdentity uSigKey uLastEntry uEscrowSig uUserSig initSigKey keSuite keFunc].
    rewrite !beq_refl, M, S. cbn [negb andb]. rewrite LE'. cbn [rbind]. discriminate.
Qed.
Definition xId (sp ep : bytes) : ident := match create goUnicode toy xAnn false [] [] 1 xEntry 99 sp ep [] with Ok i => i | _ => mkIdent (mkUid [] 0 0 0 [] [] [] keZero [] None [] [] [] [] None [] [] [] []) None None end.
Example C106_ex : create goUnicode toy xAnn false [] [] 1 xEntry 99 xS1 xE1 [] = Ok (xId xS1 xE1) /\ isMapped goUnicode xAnn = true /\ is_ok (splitEntry xEntry) = true /\
  lenN xS1 = 64 /\ lenN xE1 = 32 /\ wfb xS1 /\ wfb xE1.
Proof. split; [vm_compute; reflexivity|]. split; [vm_compute; reflexivity|]. split; [vm_compute; reflexivity|]. split; [reflexivity|]. split; [reflexivity|]. split; apply wfbb_spec; reflexivity. Qed.

(* ------------------------------------------------------------------ *)
(* C107: any number of key changes in a row.  Every message of the history is accepted by itself and as the successor of the one
   before, and the counter counts the changes. *)
Fixpoint updates (C : Crypto) (i : ident) (sps : list bytes) : res (list ident) :=
  match sps with [] => Ok [] | sp :: sps' => do n <- update C i sp; do l <- updates C n sps'; Ok (n :: l) end.
Definition keyOk (sp : bytes) : Prop := lenN sp = 64 /\ wfb sp.
Lemma updates_good U C sps : Forall keyOk sps -> forall i sp ep, goodIdent U C i sp ep -> exists h, updates C i sps = Ok h /\ List.length h = List.length sps /\
  forall n pre u, nth_error (i :: h) n = Some pre -> nth_error (i :: h) (S n) = Some u ->
    check U (idUid u) = Ok tt /\ verifySelfSig C (idUid u) = Ok tt /\ verifyUserSig C (idUid u) (idUid pre) = Ok tt /\
    newJSONUid (uidJSON (idUid u)) = Ok (idUid u) /\ uIdentity (idUid u) = uIdentity (idUid i) /\
    idSigPriv u = nth_error sps n /\ idEncPriv u = Some ep /\
    uMsgCount (idUid u) = wrap64 (uMsgCount (idUid i) + N.of_nat (S n)).
Proof.
  induction 1 as [|s sps (L & W) F IH]; intros i sp ep G.
  - exists []. split; [reflexivity|]. split; [reflexivity|]. intros [|n] pre u _ H; [discriminate|destruct n; discriminate].
  - destruct (update_good U C i sp ep s G L W) as (m & E & GM & V & CN & ID). destruct (IH m s ep GM) as (h & EH & LH & H). exists (m :: h).
    cbn [updates]. rewrite E. cbn [rbind]. rewrite EH. split; [reflexivity|]. split; [cbn [List.length]; congruence|].
    intros [|n] pre u A B; cbn [nth_error] in A, B.
    + injection A as <-. injection B as <-. split; [apply GM|]. split; [apply GM|]. split; [exact V|]. split; [apply newJSONUid_JSON, GM|]. split; [exact ID|].
      split; [apply GM|]. split; [apply GM|]. exact CN.
    + specialize (H n pre u A B) as (H1 & H2 & H3 & H4 & H5 & H6 & H7 & H8). repeat (split; [assumption || congruence|]).
      rewrite H8, CN. unfold wrap64. rewrite N.add_mod_idemp_l by discriminate. f_equal. lia.
Qed.
Theorem C107_history_accepted : forall U C id le yl sp ep xp i sps, create U C id false [] [] 1 le yl sp ep xp = Ok i ->
  yl < 2 ^ 64 -> keyOk sp -> lenN ep = 32 -> wfb ep -> Forall keyOk sps ->
  exists h, updates C i sps = Ok h /\ List.length h = List.length sps /\
  forall n pre u, nth_error (i :: h) n = Some pre -> nth_error (i :: h) (S n) = Some u ->
    check U (idUid u) = Ok tt /\ verifySelfSig C (idUid u) = Ok tt /\ verifyUserSig C (idUid u) (idUid pre) = Ok tt /\
    newJSONUid (uidJSON (idUid u)) = Ok (idUid u) /\ uIdentity (idUid u) = id /\ idSigPriv u = nth_error sps n /\ idEncPriv u = Some ep /\
    uMsgCount (idUid u) = N.of_nat (S n) mod 2 ^ 64.
Proof.
  intros U C id le yl sp ep xp i sps H Y (L1 & W1) L2 W2 F. destruct (create_good U C id [] [] le yl sp ep xp i H Y L1 W1 L2 W2) as (G & I & C0).
  destruct (updates_good U C sps F i sp ep G) as (h & E & L & R). exists h. split; [exact E|]. split; [exact L|]. intros n pre u A B.
  specialize (R n pre u A B) as (H1 & H2 & H3 & H4 & H5 & H6 & H7 & H8). rewrite C0 in H8. repeat (split; [assumption || congruence|]). exact H8.
Qed.
(* What the check of a successor means: the next count, signed with the key of the predecessor. *)
Theorem C107_successor_spec : forall C u pre, verifyUserSig C u pre = Ok tt <->
  uMsgCount u = (uMsgCount pre + 1) mod 2 ^ 64 /\
  exists sig pk, b64dec (uUserSig u) = Some sig /\ b64dec (kePub (uSigKey pre)) = Some pk /\ lenN pk = 32 /\ edverify C pk (contentJSON u) sig = true.
Proof.
  intros C u pre. unfold verifyUserSig. change (wrap64 (uMsgCount pre + 1)) with ((uMsgCount pre + 1) mod 2 ^ 64).
  destruct (N.eqb_spec ((uMsgCount pre + 1) mod 2 ^ 64) (uMsgCount u)) as [E|E]; cbn [negb]; [|split; [discriminate|intros [X _]; congruence]].
  unfold checkSig. destruct (b64dec (uUserSig u)) as [sig|]; [|split; [discriminate|intros (_ & s & p & X & _); discriminate]].
  destruct (b64dec (kePub (uSigKey pre))) as [pk|]; [|split; [discriminate|intros (_ & s & p & _ & X & _); discriminate]].
  destruct (N.eqb_spec (lenN pk) 32) as [L|L]; cbn [negb]; [|split; [discriminate|intros (_ & s & p & _ & X & Y & _); injection X as <-; congruence]].
  destruct (edverify C pk (contentJSON u) sig) eqn:V.
  - split; [|reflexivity]. intros _. split; [auto|]. exists sig, pk. auto.
  - split; [discriminate|]. intros (_ & s & p & X & Z & _ & Q). injection X as <-. injection Z as <-. congruence.
Qed.
Example C107_ex : Forall keyOk [xS2; xS1; xS2] /\ keyOk xS1 /\ is_ok (updates toy (xId xS1 xE1) [xS2; xS1; xS2]) = true.
Proof.
  assert (A : keyOk xS1) by (split; [reflexivity|apply wfbb_spec; reflexivity]). assert (B : keyOk xS2) by (split; [reflexivity|apply wfbb_spec; reflexivity]).
  split; [repeat (apply Forall_cons; [assumption|]); apply Forall_nil|]. split; [exact A|vm_compute; reflexivity].
Qed.

(* ------------------------------------------------------------------ *)
(* C108: own identities survive in the key database.  [d] is the database after any commands. *)
(* What is read back is acceptable and comes with its private keys. *)
Theorem C108_own_usable : forall U C ops id, let d := irun U C ops emptyIddb in Forall iopWf ops ->
  (forall r, In r (dOwn d) -> owIdentity (snd r) <> id) \/
  exists i rep sp ep, getOwn C id true d = Ok (i, rep) /\ getOwn C id false d = Ok (mkIdent (idUid i) None None, rep) /\
    uIdentity (idUid i) = id /\ check U (idUid i) = Ok tt /\ verifySelfSig C (idUid i) = Ok tt /\
    idSigPriv i = Some sp /\ b64dec (kePub (uSigKey (idUid i))) = Some (edpub C sp) /\
    idEncPriv i = Some ep /\ (exists k, uPubKeys (idUid i) = [k] /\ b64dec (kePub k) = Some (dhpub C ep)) /\
    forall r, In r (dOwn d) -> owIdentity (snd r) = id -> owCount (snd r) <= uMsgCount (idUid i).
Proof.
  intros U C ops id d F. pose proof (ownOk_run U C ops emptyIddb (ownOk_empty U C) F) as K. fold d in K.
  destruct (getOwn_cases U C id true d K) as [[_ H]|(n & r & i & sp & ep & rep & T & I & R & ID & E & M)]; [left; exact H|right].
  exists i, rep, sp, ep. pose proof (getOwn_row U C id false d n r i sp ep rep T R) as E'. pose proof R as (G & _ & CN & _).
  rewrite E, (readRow_true U C i sp ep rep G), E'. split; [reflexivity|]. split; [reflexivity|]. split; [exact ID|]. split; [apply G|]. split; [apply G|]. split; [apply G|].
  rewrite (gi_sk _ _ _ _ _ G). split; [apply b64dec_enc, edpub_wf|]. split; [apply G|]. split; [exists (initDHKey C ep); split; [apply G|apply b64dec_enc, dhpub_wf]|].
  rewrite <- CN. exact M.
Qed.
(* A new nym is found. *)
Theorem C108_generated : forall U C ops p le yl sp ep d', let d := irun U C ops emptyIddb in Forall iopWf ops -> iopWf (IGenerate p le yl sp ep) ->
  ceGenerate U C p le yl sp ep d = Ok d' -> exists id i, imap U p = Ok id /\ uIdentity (idUid i) = id /\ idSigPriv i = Some sp /\ idEncPriv i = Some ep /\
    ((forall r, In r (dOwn d) -> owIdentity (snd r) <> id) -> getOwn C id true d' = Ok (i, None)).
Proof.
  intros U C ops p le yl sp ep d' d F W E. apply ceGenerate_ok in E as (id & dmn & e & i & M & L & CR & A). destruct W as (Y & L1 & W1 & L2 & W2).
  destruct (create_good U C id [] [] e yl sp ep [] i CR Y L1 W1 L2 W2) as (G & ID & C0). exists id, i. split; [exact (mapPlus_imap U p id dmn M)|]. split; [exact ID|].
  split; [apply G|]. split; [apply G|]. intros H. destruct (addOwn_good U C i sp ep d d' G A) as (LT & ->).
  rewrite (getOwn_row U C id true _ (nextId (dOwn d)) (mkOwn (uIdentity (idUid i)) (uMsgCount (idUid i)) (uidJSON (idUid i)) (b64enc sp) (b64enc ep) []) i sp ep None).
  - f_equal. apply (readRow_true U C i sp ep None G).
  - cbn [dOwn]. apply tmax_tins_new; [apply beq_spec; exact ID|]. intros s Is Ps. apply beq_spec in Ps. elim (H s Is Ps).
  - apply rowOf_new; assumption.
Qed.
(* After a key change the new message with its keys is used. *)
Theorem C108_updated : forall U C ops p sp d', let d := irun U C ops emptyIddb in Forall iopWf ops -> keyOk sp -> ceGenupdate U C p sp d = Ok d' ->
  exists id i rep n, imap U p = Ok id /\ getOwn C id true d = Ok (i, rep) /\ update C i sp = Ok n /\ verifyUserSig C (idUid n) (idUid i) = Ok tt /\
    uMsgCount (idUid n) = uMsgCount (idUid i) + 1 /\ getOwn C id true d' = Ok (n, None).
Proof.
  intros U C ops p sp d' d F (L & W) E. pose proof (ownOk_run U C ops emptyIddb (ownOk_empty U C) F) as K. fold d in K.
  apply ceGenupdate_ok in E as (id & i & rep & n & M & G & Up & A). exists id, i, rep, n. split; [exact M|]. split; [exact G|]. split; [exact Up|].
  destruct (getOwn_cases U C id true d K) as [[E _]|(nn & rr & j & sp0 & ep0 & rp & T & I & RO & ID & E & MX)]; [congruence|].
  pose proof RO as (GI & _ & CN & _ & _ & _ & LT & _). rewrite (readRow_true U C j sp0 ep0 rp GI) in E. rewrite E in G. injection G as <- <-.
  destruct (update_ok U C j sp0 ep0 sp n GI L W Up) as (GN & V & CC & IN). destruct (addOwn_good U C n sp ep0 d d' GN A) as (LN & ->).
  assert (Q : uMsgCount (idUid n) = uMsgCount (idUid j) + 1) by (rewrite CC; apply wrap64_id; lia).
  split; [exact V|]. split; [exact Q|].
  rewrite (getOwn_row U C id true _ (nextId (dOwn d)) (mkOwn (uIdentity (idUid n)) (uMsgCount (idUid n)) (uidJSON (idUid n)) (b64enc sp) (b64enc ep0) []) n sp ep0 None).
  - f_equal. apply (readRow_true U C n sp ep0 None GN).
  - cbn [dOwn]. apply tmax_tins_new; [apply beq_spec; cbn [owIdentity]; congruence|]. intros s Is Ps. apply beq_spec in Ps. specialize (MX s Is Ps). cbn [owCount]. lia.
  - apply rowOf_new; assumption.
Qed.
(* A key change is always possible for a stored nym, until the counter reaches the limit of the database. *)
Theorem C108_update_total : forall U C ops p sp id i rep, let d := irun U C ops emptyIddb in Forall iopWf ops -> keyOk sp -> imap U p = Ok id ->
  getOwn C id false d = Ok (i, rep) -> uMsgCount (idUid i) + 1 < 2 ^ 63 -> is_ok (ceGenupdate U C p sp d) = true.
Proof.
  intros U C ops p sp id i rep d F (L & W) M G LT. pose proof (ownOk_run U C ops emptyIddb (ownOk_empty U C) F) as K. fold d in K.
  destruct (getOwn_cases U C id false d K) as [[E _]|(nn & rr & j & sp0 & ep0 & rp & T & I & RO & ID & E & MX)]; [congruence|].
  rewrite E in G. injection G as G1 _. apply (f_equal idUid) in G1. cbn [idUid] in G1. pose proof RO as (GI & _).
  unfold ceGenupdate. rewrite M. cbn [rbind]. rewrite (getOwn_row U C id true d nn rr j sp0 ep0 rp T RO), (readRow_true U C j sp0 ep0 rp GI). cbn [rbind].
  destruct (update_good U C j sp0 ep0 sp GI L W) as (n & -> & GN & _ & CC & _). cbn [rbind].
  destruct (addOwn_total U C n sp ep0 d GN) as (d' & ->); [|reflexivity]. rewrite CC, G1, wrap64_id by lia. exact LT.
Qed.
(* Commands for one nym leave the others alone. *)
Theorem C108_others_kept : forall U C ops o id b, let d := irun U C ops emptyIddb in Forall iopWf ops -> iopWf o -> opNym U o <> Ok id ->
  getOwn C id b (istep U C d o) = getOwn C id b d.
Proof. intros U C ops o id b d F W N. apply getOwn_frame; [|exact W|exact N]. apply ownOk_run; [apply ownOk_empty|exact F]. Qed.
Definition xOps : list iop := [IGenerate xAnn xLast 99 xS1 xE1; IGenerate xBob xLast 99 xS2 xE2].
Lemma xOps_wf : Forall iopWf xOps.
Proof. repeat (apply Forall_cons; [cbn [iopWf]; repeat split; try reflexivity; apply wfbb_spec; reflexivity|]). apply Forall_nil. Qed.
Example C108_ex : is_ok (getOwn toy xAnn true (irun goUnicode toy xOps emptyIddb)) = true /\ imap goUnicode (str "Ann@B.de") = Ok xAnn /\
  is_ok (ceGenupdate goUnicode toy (str "Ann@B.de") xS2 (irun goUnicode toy xOps emptyIddb)) = true /\ opNym goUnicode (IUpdate xAnn xS2) <> Ok xBob.
Proof. split; [vm_compute; reflexivity|]. split; [vm_compute; reflexivity|]. split; [vm_compute; reflexivity|]. vm_compute. discriminate. Qed.

(* ------------------------------------------------------------------ *)
(* C109: "delete user ID ... and all it's key material".  Full statement (false): after a nym has been deleted nothing of it is left.
   Deleting right after a key change only takes back that change: the database is the one before it, with the old private keys. *)
Theorem C109_delete_undoes_update : forall U C ops p sp d', let d := irun U C ops emptyIddb in Forall iopWf ops -> keyOk sp ->
  ceGenupdate U C p sp d = Ok d' -> ceDelete U C p d' = Ok d.
Proof.
  intros U C ops p sp d' d F (L & W) E. pose proof (ownOk_run U C ops emptyIddb (ownOk_empty U C) F) as K. fold d in K.
  apply ceGenupdate_ok in E as (id & i & rep & n & M & G & Up & A).
  destruct (getOwn_cases U C id true d K) as [[E _]|(nn & rr & j & sp0 & ep0 & rp & T & I & RO & ID & E & MX)]; [congruence|].
  pose proof RO as (GI & _ & CN & _ & _ & _ & LT & _). rewrite (readRow_true U C j sp0 ep0 rp GI) in E. rewrite E in G. injection G as <- <-.
  destruct (update_ok U C j sp0 ep0 sp n GI L W Up) as (GN & V & CC & IN). destruct (addOwn_good U C n sp ep0 d d' GN A) as (LN & ->).
  assert (Q : uMsgCount (idUid n) = uMsgCount (idUid j) + 1) by (rewrite CC; apply wrap64_id; lia).
  unfold ceDelete. rewrite M. cbn [rbind].
  rewrite (getOwn_row U C id false _ (nextId (dOwn d)) (mkOwn (uIdentity (idUid n)) (uMsgCount (idUid n)) (uidJSON (idUid n)) (b64enc sp) (b64enc ep0) []) n sp ep0 None).
  - unfold readRow. cbn [rbind idUid]. f_equal. unfold delOwn. cbn [dOwn dPki dFki]. rewrite tdel_tins; [apply iddb_eta| |intros m; apply beq_refl].
    intros r Ir. apply beq_neq. intros X. pose proof (row_identity U C d r (idUid n) K (gi_wf _ _ _ _ _ GN) Ir X) as X1.
    destruct K as (_ & _ & _ & R). destruct (R r Ir) as (x & s1 & e1 & r1 & Gx & B1 & B2 & B3 & _). rewrite B3 in X.
    apply uidJSON_inj in X; [|apply Gx|apply GN]. rewrite IN, ID in X1. specialize (MX r Ir X1). rewrite B2, X in MX. lia.
  - cbn [dOwn]. apply tmax_tins_new; [apply beq_spec; cbn [owIdentity]; congruence|]. intros s Is Ps. apply beq_spec in Ps. specialize (MX s Is Ps). cbn [owCount]. lia.
  - apply rowOf_new; assumption.
Qed.
Theorem C109_refuted : exists U C ops p d', Forall iopWf ops /\ ceDelete U C p (irun U C ops emptyIddb) = Ok d' /\ imap U p = Ok xAnn /\
  exists i, getOwn C xAnn true d' = Ok (i, None) /\ idSigPriv i = Some xS1 /\ idEncPriv i = Some xE1.
Proof.
  exists goUnicode, toy, (xOps ++ [IUpdate xAnn xS2]), xAnn, (irun goUnicode toy xOps emptyIddb). split.
  { apply Forall_app. split; [apply xOps_wf|]. apply Forall_cons; [split; [reflexivity|apply wfbb_spec; reflexivity]|apply Forall_nil]. }
  split; [vm_compute; reflexivity|]. split; [vm_compute; reflexivity|]. exists (xId xS1 xE1). vm_compute. auto.
Qed.
(* What is left after deleting: exactly the nyms that had more than one message. *)
Theorem C109_left_iff : forall U C ops p d' id, let d := irun U C ops emptyIddb in Forall iopWf ops -> ceDelete U C p d = Ok d' -> imap U p = Ok id ->
  ((exists r, In r (dOwn d') /\ owIdentity (snd r) = id) <->
   (exists r s, In r (dOwn d) /\ In s (dOwn d) /\ owIdentity (snd r) = id /\ owIdentity (snd s) = id /\ owMsg (snd r) <> owMsg (snd s))).
Proof.
  intros U C ops p d' id d F E M. pose proof (ownOk_run U C ops emptyIddb (ownOk_empty U C) F) as K. fold d in K.
  apply ceDelete_ok in E as (id' & i & rep & M' & G & ->). rewrite M in M'. injection M' as <-.
  destruct (getOwn_cases U C id false d K) as [[E _]|(nn & rr & j & sp0 & ep0 & rp & T & I & RO & ID & E & MX)]; [congruence|].
  rewrite E in G. injection G as G1 _. apply (f_equal idUid) in G1. cbn [idUid] in G1. rewrite <- G1. destruct RO as (GI & B1 & B2 & B3 & _).
  unfold delOwn. cbn [dOwn]. split.
  - intros (r & Ir & Er). apply In_tdel in Ir as (Ir & Nr). apply beq_neq in Nr. exists r, (nn, rr). cbn [snd]. split; [exact Ir|]. split; [exact I|]. split; [exact Er|]. split; [congruence|]. rewrite B3. exact Nr.
  - intros (r & s & Ir & Is & Er & Es & N). destruct (beq (owMsg (snd r)) (uidJSON (idUid j))) eqn:X.
    + exists s. split; [|exact Es]. apply In_tdel. split; [exact Is|]. apply beq_neq. apply beq_spec in X. congruence.
    + exists r. split; [|exact Er]. apply In_tdel. split; [exact Ir|exact X].
Qed.
(* A nym with one message only is gone. *)
Theorem C109_partial : forall U C ops p d' id b, let d := irun U C ops emptyIddb in Forall iopWf ops -> ceDelete U C p d = Ok d' -> imap U p = Ok id ->
  (forall r s, In r (dOwn d) -> In s (dOwn d) -> owIdentity (snd r) = id -> owIdentity (snd s) = id -> owMsg (snd r) = owMsg (snd s)) ->
  (forall r, In r (dOwn d') -> owIdentity (snd r) <> id) /\ getOwn C id b d' = Err "keydb: no privkey for nym found"%string.
Proof.
  intros U C ops p d' id b d F E M H.
  assert (X : forall r, In r (dOwn d') -> owIdentity (snd r) <> id).
  { intros r Ir Er. destruct (proj1 (C109_left_iff U C ops p d' id F E M) (ex_intro _ r (conj Ir Er))) as (x & s & Ix & Is & Ex & Es & N). apply N. apply H; assumption. }
  split; [exact X|]. unfold getOwn. rewrite tmax_none_intro; [reflexivity|]. intros s Is. apply beq_neq. apply X, Is.
Qed.
Example C109_ex : is_ok (ceDelete goUnicode toy xAnn (irun goUnicode toy xOps emptyIddb)) = true /\
  map (fun r => owIdentity (snd r)) (dOwn (irun goUnicode toy xOps emptyIddb)) = [xAnn; xBob].
Proof. vm_compute. auto. Qed.

(* ------------------------------------------------------------------ *)
(* C121: generating a nym that exists.  Full statement (false): when generating a nym succeeds, its new keys are the ones used afterwards.
   For a nym with a key change the new message is stored under a smaller counter and never read. *)
Theorem C121_generated_again : forall U C ops p le yl sp ep d' id i rep b, let d := irun U C ops emptyIddb in Forall iopWf ops -> iopWf (IGenerate p le yl sp ep) ->
  ceGenerate U C p le yl sp ep d = Ok d' -> imap U p = Ok id -> getOwn C id false d = Ok (i, rep) -> 0 < uMsgCount (idUid i) ->
  getOwn C id b d' = getOwn C id b d.
Proof.
  intros U C ops p le yl sp ep d' id i rep b d F W E M G P. pose proof (ownOk_run U C ops emptyIddb (ownOk_empty U C) F) as K. fold d in K.
  apply ceGenerate_ok in E as (id' & dmn & e & n & M' & L & CR & A). destruct W as (Y & L1 & W1 & L2 & W2). apply mapPlus_imap in M'. rewrite M in M'. injection M' as <-.
  destruct (create_good U C id [] [] e yl sp ep [] n CR Y L1 W1 L2 W2) as (GN & ID & C0). destruct (addOwn_good U C n sp ep d d' GN A) as (LT & ->).
  destruct (getOwn_cases U C id false d K) as [[E _]|(nn & rr & j & sp0 & ep0 & rp & T & I & RO & IDj & E & MX)]; [congruence|].
  rewrite E in G. injection G as G1 _. apply (f_equal idUid) in G1. cbn [idUid] in G1. destruct RO as (GI & B1 & B2 & _).
  apply getOwn_same. cbn [dOwn]. rewrite tmax_tins by (cbn [owIdentity]; apply beq_spec; exact ID). rewrite T. cbn [snd owCount].
  replace (owCount rr <? uMsgCount (idUid n)) with false by (rewrite B2, G1; lia). reflexivity.
Qed.
Theorem C121_refuted : exists U C ops p le yl sp ep d' id i, Forall iopWf ops /\ iopWf (IGenerate p le yl sp ep) /\
  ceGenerate U C p le yl sp ep (irun U C ops emptyIddb) = Ok d' /\ imap U p = Ok id /\ getOwn C id true d' = Ok (i, None) /\ idSigPriv i <> Some sp /\ idEncPriv i <> Some ep.
Proof.
  exists goUnicode, toy, (xOps ++ [IUpdate xAnn xS2]), xAnn, xLast, 99, xS1, xE2, (istep goUnicode toy (irun goUnicode toy (xOps ++ [IUpdate xAnn xS2]) emptyIddb) (IGenerate xAnn xLast 99 xS1 xE2)), xAnn,
    (match update toy (xId xS1 xE1) xS2 with Ok n => n | _ => xId xS1 xE1 end). split.
  { apply Forall_app. split; [apply xOps_wf|]. apply Forall_cons; [split; [reflexivity|apply wfbb_spec; reflexivity]|apply Forall_nil]. }
  split; [cbn [iopWf]; repeat split; try reflexivity; apply wfbb_spec; reflexivity|].
  split; [vm_compute; reflexivity|]. split; [vm_compute; reflexivity|]. split; [vm_compute; reflexivity|]. vm_compute. split; discriminate.
Qed.
(* It holds for a nym that is not in the database: C108_generated. *)
Theorem C121_partial : forall U C ops p le yl sp ep d' id, let d := irun U C ops emptyIddb in Forall iopWf ops -> iopWf (IGenerate p le yl sp ep) ->
  ceGenerate U C p le yl sp ep d = Ok d' -> imap U p = Ok id -> is_ok (getOwn C id false d) = false ->
  exists i, getOwn C id true d' = Ok (i, None) /\ idSigPriv i = Some sp /\ idEncPriv i = Some ep.
Proof.
  intros U C ops p le yl sp ep d' id d F W E M G. pose proof (ownOk_run U C ops emptyIddb (ownOk_empty U C) F) as K. fold d in K.
  destruct (C108_generated U C ops p le yl sp ep d' F W E) as (id' & i & M' & _ & S1 & S2 & H). rewrite M in M'. injection M' as <-. exists i. split; [|auto]. apply H.
  destruct (getOwn_cases U C id false d K) as [[_ X]|(nn & rr & j & sp0 & ep0 & rp & T & I & RO & IDj & X & MX)]; [exact X|]. rewrite X in G. discriminate.
Qed.
Example C121_ex : is_ok (getOwn toy xAnn false emptyIddb) = false /\ is_ok (ceGenerate goUnicode toy xAnn xLast 99 xS1 xE1 emptyIddb) = true /\
  match getOwn toy xAnn false (irun goUnicode toy (xOps ++ [IUpdate xAnn xS2]) emptyIddb) with Ok (i, _) => 0 <? uMsgCount (idUid i) | _ => false end = true.
Proof. split; [reflexivity|]. vm_compute. auto. Qed.

(* ------------------------------------------------------------------ *)
(* C110: a registration that failed can be repeated.  Full statement (false): if registering reports an error, registering again with a
   server that answers correctly succeeds.  The reply is stored before it is verified, so every later attempt is refused. *)
Theorem C110_stuck : forall U C ops p srv ks e d', let d := irun U C ops emptyIddb in Forall iopWf ops -> ceRegister U C p srv ks d = (e, d') -> d' <> d ->
  forall srv' ks', ceRegister U C p srv' ks' d' = (Err "cryptengine: UID has already been registered"%string, d').
Proof.
  intros U C ops p srv ks e d' d F E N srv' ks'. pose proof (ownOk_run U C ops emptyIddb (ownOk_empty U C) F) as K. fold d in K.
  destruct (ceRegister_cases U C p srv ks d) as [[X _]|(id & dmn & i & r & jsn & M & G & S & J & X & _)]; rewrite E in X; cbn [snd] in X; [congruence|].
  destruct (getOwn_cases U C id false d K) as [[Q _]|(nn & rr & j & sp0 & ep0 & rp & T & I & RO & IDj & Q & MX)]; [congruence|].
  rewrite Q in G. injection G as G1 _. apply (f_equal idUid) in G1. cbn [idUid] in G1. destruct RO as (GI & B1 & B2 & B3 & B4 & B5 & B6 & B7 & B8).
  assert (Z : getOwn C id false d' = Ok (readRow j false (Some r))).
  { apply (getOwn_row U C id false d' nn (mkOwn (owIdentity rr) (owCount rr) (owMsg rr) (owSig rr) (owEnc rr) (replyJSON r)) j sp0 ep0 (Some r)).
    - rewrite X. unfold addOwnReply. cbn [dOwn]. rewrite tmax_tupd by (intros; reflexivity). rewrite T. cbn [fst snd]. rewrite B3, G1, beq_refl. reflexivity.
    - unfold rowOf. cbn [owIdentity owCount owMsg owSig owEnc owReply]. repeat (split; [assumption|]). split; [reflexivity|]. intros q Eq. injection Eq as <-. exact (newJSONReply_wf _ _ J). }
  unfold ceRegister. rewrite M. cbn [rbind]. rewrite Z. unfold readRow. cbn [rbind]. reflexivity.
Qed.
Definition xBadReply : uidReply := mkReply [] [] 0 [].
Definition xGood (u : uidMsg) : res (option bytes) := let '(_, _, enc) := encryptUid toy u xIV in Ok (Some (replyJSON (createReply toy enc [] 0 xS2))).
Theorem C110_refuted : exists U C ops p srv ks e d' srv' ks', Forall iopWf ops /\ ceRegister U C p srv ks (irun U C ops emptyIddb) = (Err e, d') /\
  fst (ceRegister U C p srv' ks' (irun U C ops emptyIddb)) = Ok tt /\ fst (ceRegister U C p srv' ks' d') = Err "cryptengine: UID has already been registered"%string.
Proof.
  exists goUnicode, toy, [IGenerate xAnn xLast 99 xS1 xE1], xAnn, (fun u => let '(_, _, enc) := encryptUid toy u xIV in Ok (Some (replyJSON (mkReply enc [] 0 [])))), [b64enc (edpub toy xS2)], "uid: server-signature invalid"%string,
    (snd (ceRegister goUnicode toy xAnn (fun u => let '(_, _, enc) := encryptUid toy u xIV in Ok (Some (replyJSON (mkReply enc [] 0 [])))) [b64enc (edpub toy xS2)] (irun goUnicode toy [IGenerate xAnn xLast 99 xS1 xE1] emptyIddb))), xGood, [b64enc (edpub toy xS2)].
  split; [apply Forall_cons; [cbn [iopWf]; repeat split; try reflexivity; apply wfbb_spec; reflexivity|apply Forall_nil]|].
  split; [vm_compute; reflexivity|]. split; vm_compute; reflexivity.
Qed.
(* Before a reply could be read nothing is written. *)
Theorem C110_partial : forall U C p srv ks d, (forall u jsn, srv u = Ok (Some jsn) -> is_ok (newJSONReply jsn) = false) -> snd (ceRegister U C p srv ks d) = d.
Proof.
  intros U C p srv ks d H. destruct (ceRegister_cases U C p srv ks d) as [[X _]|(id & dmn & i & r & jsn & _ & _ & S & J & _)]; [exact X|].
  specialize (H _ _ S). rewrite J in H. discriminate.
Qed.
Example C110_ex : forall u jsn, (fun _ : uidMsg => Ok (Some (str "{"))) u = Ok (Some jsn) -> is_ok (newJSONReply jsn) = false.
Proof. intros u jsn E. injection E as <-. reflexivity. Qed.

(* ------------------------------------------------------------------ *)
(* C112: what a key server makes of a UID message is accepted and decrypted by the client. *)
Lemma entryJSON_reply e h p s k : entryJSON (mkReply e h p s) = entryJSON (mkReply e h p k).
Proof. reflexivity. Qed.
Lemma reply_round C idx h u iv hc pos k : lenN idx = 32 -> wfb idx -> lenN h = 32 -> uidWf u -> wfb (uidJSON u) -> lenN iv = 16 -> wfb iv ->
  replyDecrypt C (createReply C (b64enc (idx ++ iv ++ xorb (uidJSON u) (ctr C h iv (lenN (uidJSON u))))) hc pos k) h = Ok (idx, u).
Proof.
  intros Li Wi Lh Wu Wj Lv Wv. unfold replyDecrypt, createReply. cbn [rpEnc].
  rewrite b64dec_enc by (apply wfb_app; split; [exact Wi|apply wfb_app; split; [exact Wv|apply xorb_wf; [exact Wj|apply ctr_wf]]]).
  replace (lenN (idx ++ _) <? 32) with false by (rewrite lenN_app; lia). rewrite dropN_app, takeN_app by exact Li. rewrite ctr_round by assumption. cbn [rbind].
  rewrite newJSONUid_JSON by exact Wu. reflexivity.
Qed.
Lemma reply_sig C r u k : (exists v, replyDecrypt C r (uidHash C u) = Ok (uidIndex C u, v)) -> rpSrvSig r = b64enc (edsign C k (entryJSON r)) ->
  verifySrvSig C r u (b64enc (edpub C k)) = Ok tt.
Proof.
  intros (v & E) S. unfold verifySrvSig. rewrite E. cbn [rbind]. rewrite beq_refl. cbn [negb]. rewrite S, b64dec_enc by apply edsign_wf. rewrite b64dec_enc by apply edpub_wf.
  rewrite edpub_len. change (32 =? 32) with true. cbn [negb]. rewrite edverify_sign. reflexivity.
Qed.
Theorem C112_round_trip : forall C u iv hc pos k h idx enc, encryptUid C u iv = (h, idx, enc) -> uidWf u -> wfb (uidJSON u) -> lenN iv = 16 -> wfb iv ->
  replyDecrypt C (createReply C enc hc pos k) h = Ok (idx, u) /\ verifySrvSig C (createReply C enc hc pos k) u (b64enc (edpub C k)) = Ok tt /\
  (pos < 2 ^ 64 -> newJSONReply (replyJSON (createReply C enc hc pos k)) = Ok (createReply C enc hc pos k)).
Proof.
  intros C u iv hc pos k h idx enc E Wu Wj Lv Wv. unfold encryptUid in E. injection E as <- <- <-.
  assert (R : replyDecrypt C (createReply C (b64enc (uidIndex C u ++ iv ++ xorb (uidJSON u) (ctr C (uidHash C u) iv (lenN (uidJSON u))))) hc pos k) (uidHash C u) = Ok (uidIndex C u, u))
    by (apply reply_round; try assumption; [apply sha256_len|apply sha256_wf|apply sha256_len]).
  split; [exact R|]. split; [|intros P; apply newJSONReply_JSON; exact P]. apply reply_sig; [exists u; exact R|]. reflexivity.
Qed.
Example C112_ex : uidWf (idUid (xId xS1 xE1)) /\ wfb (uidJSON (idUid (xId xS1 xE1))) /\ lenN xIV = 16 /\ wfb xIV.
Proof. split; [vm_compute; auto|]. split; [apply wfbb_spec; vm_compute; reflexivity|]. split; [reflexivity|apply wfbb_spec; reflexivity]. Qed.

(* ------------------------------------------------------------------ *)
(* C111: the server's confirmation.  Full statement (false): VerifySrvSig accepts a reply only if the message in it is the one that was
   sent.  The code compares the decrypted message with itself (uid/uid.go:649): a reply with any other message inside is accepted. *)
Theorem C111_any_message : forall C u v iv hc pos k, uidWf v -> wfb (uidJSON v) -> lenN iv = 16 -> wfb iv ->
  let r := createReply C (b64enc (uidIndex C u ++ iv ++ xorb (uidJSON v) (ctr C (uidHash C u) iv (lenN (uidJSON v))))) hc pos k in
  verifySrvSig C r u (b64enc (edpub C k)) = Ok tt /\ replyDecrypt C r (uidHash C u) = Ok (uidIndex C u, v).
Proof.
  intros C u v iv hc pos k Wu Wj Lv Wv r.
  assert (R : replyDecrypt C r (uidHash C u) = Ok (uidIndex C u, v)) by (apply reply_round; try assumption; [apply sha256_len|apply sha256_wf|apply sha256_len]).
  split; [|exact R]. apply reply_sig; [exists v; exact R|reflexivity].
Qed.
Theorem C111_refuted : exists C u r k v idx, verifySrvSig C r u k = Ok tt /\ replyDecrypt C r (uidHash C u) = Ok (idx, v) /\ v <> u.
Proof.
  exists toy, (idUid (xId xS1 xE1)),
    (createReply toy (b64enc (uidIndex toy (idUid (xId xS1 xE1)) ++ xIV ++ xorb (uidJSON (idUid (xId xS2 xE2))) (ctr toy (uidHash toy (idUid (xId xS1 xE1))) xIV (lenN (uidJSON (idUid (xId xS2 xE2))))))) [] 0 xS1),
    (b64enc (edpub toy xS1)), (idUid (xId xS2 xE2)), (uidIndex toy (idUid (xId xS1 xE1))).
  assert (W : uidWf (idUid (xId xS2 xE2))) by (vm_compute; auto). assert (B : wfb (uidJSON (idUid (xId xS2 xE2)))) by (apply wfbb_spec; vm_compute; reflexivity).
  destruct (C111_any_message toy (idUid (xId xS1 xE1)) (idUid (xId xS2 xE2)) xIV [] 0 xS1 W B eq_refl (proj1 (wfbb_spec xIV) (eq_refl true))) as (A1 & A2).
  split; [exact A1|]. split; [exact A2|]. vm_compute. discriminate.
Qed.
(* What it does establish: the reply can be decrypted, it starts with the index of the message that was sent, and the entry carries the
   server's signature. *)
Theorem C111_partial : forall C r u k, verifySrvSig C r u k = Ok tt -> exists b v sig pk, b64dec (rpEnc r) = Some b /\ takeN 32 b = uidIndex C u /\
  replyDecrypt C r (uidHash C u) = Ok (uidIndex C u, v) /\ b64dec (rpSrvSig r) = Some sig /\ b64dec k = Some pk /\ lenN pk = 32 /\ edverify C pk (entryJSON r) sig = true.
Proof.
  intros C r u k H. pose proof H as H'. apply verifySrvSig_index in H' as (b & B1 & B2). unfold verifySrvSig in H. apply rbind_ok in H as ([idx v] & R & H).
  destruct (beq idx (uidIndex C u)) eqn:I; [|discriminate]. apply beq_spec in I. subst idx. cbn [negb] in H.
  destruct (b64dec (rpSrvSig r)) as [sig|]; [|discriminate]. destruct (b64dec k) as [pk|]; [|discriminate]. destruct (N.eqb_spec (lenN pk) 32) as [L|]; [|discriminate]. cbn [negb] in H.
  destruct (edverify C pk (entryJSON r) sig) eqn:V; [|discriminate]. exists b, v, sig, pk. auto 10.
Qed.
Example C111_ex : verifySrvSig toy (createReply toy (snd (encryptUid toy (idUid (xId xS1 xE1)) xIV)) [] 0 xS2) (idUid (xId xS1 xE1)) (b64enc (edpub toy xS2)) = Ok tt.
Proof. vm_compute. reflexivity. Qed.

(* ------------------------------------------------------------------ *)
(* C113: a KeyInit message made for an own identity is accepted until it expires, and contains the key whose private half is kept. *)
Lemma reach_good U C ops id i rep : Forall iopWf ops -> getOwn C id true (irun U C ops emptyIddb) = Ok (i, rep) -> exists sp ep, goodIdent U C i sp ep.
Proof.
  intros F G. pose proof (ownOk_run U C ops emptyIddb (ownOk_empty U C) F) as K.
  destruct (getOwn_cases U C id true _ K) as [[E _]|(nn & rr & j & sp0 & ep0 & rp & T & I & RO & ID & E & MX)]; [congruence|].
  destruct RO as (GI & _). rewrite (readRow_true U C j sp0 ep0 rp GI) in E. rewrite E in G. injection G as <- <-. exists sp0, ep0. exact GI.
Qed.
Lemma wfb_sa1 C mix nym dp : wfb mix -> wfb nym -> wfb (saJSON (mkSA mix nym [initDHKey C dp])).
Proof. intros A B. apply wfb_sa; cbn [saMix saNym saKeys]; [exact A|exact B|]. apply Forall_cons; [apply keB_dh|apply Forall_nil]. Qed.
Lemma anchorKey_dh C dp : anchorKey fECDHE [initDHKey C dp] = Ok (initDHKey C dp).
Proof. reflexivity. Qed.
Lemma made_anchor U C i sp ep cnt na nb fb repo mix nym now dp iv ki h priv : goodIdent U C i sp ep -> wfb mix -> wfb nym -> lenN iv = 16 -> wfb iv ->
  newKeyInit C i cnt na nb fb repo mix nym now dp iv = Ok (ki, h, priv) ->
  sessionAnchor C ki (kePub (uSigKey (idUid i))) = Ok (mkSA mix nym [initDHKey C dp]).
Proof.
  intros G Wm Wn Li Wi K. apply (newKeyInit_ok U C i sp ep) in K; [|exact G].
  destruct K as (_ & _ & _ & _ & _ & _ & _ & _ & _ & _ & A & _). rewrite (gi_sk _ _ _ _ _ G). cbn [initSigKey kePub]. destruct ki as [c s]. cbn [kiCont] in A.
  apply (sessionAnchor_ok C (edpub C sp) _ iv); [exact A|apply edpub_wf|exact Wi|exact Li|apply wfb_sa1; assumption].
Qed.
Theorem C113_keyinit_accepted : forall U C ops id i rep cnt na nb fb repo mix nym now dp iv ki h priv, Forall iopWf ops ->
  getOwn C id true (irun U C ops emptyIddb) = Ok (i, rep) -> wfb mix -> wfb nym -> lenN dp = 32 -> wfb dp -> lenN iv = 16 -> wfb iv ->
  newKeyInit C i cnt na nb fb repo mix nym now dp iv = Ok (ki, h, priv) ->
  (forall now', verifyKI C ki (uRepoURIs (idUid i)) (kePub (uSigKey (idUid i))) now' = if na <? now' then Err "uid: expired"%string else Ok tt) /\
  (checkKI ki = Ok tt <-> cnt = 0) /\ sessionAnchor C ki (kePub (uSigKey (idUid i))) = Ok (mkSA mix nym [initDHKey C dp]) /\
  h = keHash (initDHKey C dp) /\ b64dec priv = Some dp /\ now <= na <= now + 7776000 /\
  sigKeyHash C (keHash (uSigKey (idUid i))) = Ok (kcSigKeyHash (kiCont ki)).
Proof.
  intros U C ops id i rep cnt na nb fb repo mix nym now dp iv ki h priv F G Wm Wn Ld Wd Li Wi K. destruct (reach_good U C ops id i rep F G) as (sp & ep & GI).
  pose proof (made_anchor U C i sp ep cnt na nb fb repo mix nym now dp iv ki h priv GI Wm Wn Li Wi K) as SA.
  apply (newKeyInit_ok U C i sp ep) in K; [|exact GI].
  destruct K as (K1 & K2 & K3 & (rs & K4) & K5 & K6 & K7 & K8 & K9 & K10 & (KA & _) & KS & -> & ->).
  split; [|split; [|split; [exact SA|split; [reflexivity|split; [apply b64dec_enc, Wd|split; [unfold MaxNotAfter in K3; lia|]]]]]].
  - intros now'. unfold verifyKI. rewrite K10, K4. cbn [existsb]. rewrite beq_refl. cbn [orb negb]. rewrite SA. cbn [rbind saKeys]. rewrite anchorKey_dh. cbn [rbind].
    rewrite initDHKey_verify. cbn [rbind]. rewrite K7, K8. replace (na <=? nb) with false by lia. destruct (na <? now'); [reflexivity|].
    rewrite KS, (gi_sk _ _ _ _ _ GI). cbn [initSigKey kePub]. apply checkSigP_ok.
  - unfold checkKI. rewrite K5, beq_refl, K6. cbn [negb]. destruct (N.eqb_spec cnt 0); cbn [negb]; split; congruence.
  - unfold sigKeyHash. rewrite (gi_sk _ _ _ _ _ GI). cbn [initSigKey keHash]. rewrite b64dec_enc by apply sha512_wf. rewrite KA. reflexivity.
Qed.
(* and it can always be made, for times in order and at most ninety days ahead *)
Theorem C113_keyinit_total : forall U C ops id i rep cnt na nb fb repo rs mix nym now dp iv, Forall iopWf ops ->
  getOwn C id true (irun U C ops emptyIddb) = Ok (i, rep) -> uRepoURIs (idUid i) = repo :: rs -> nb < na -> now <= na -> na <= now + 7776000 ->
  is_ok (newKeyInit C i cnt na nb fb repo mix nym now dp iv) = true.
Proof.
  intros U C ops id i rep cnt na nb fb repo rs mix nym now dp iv F G R A B D. destruct (reach_good U C ops id i rep F G) as (sp & ep & GI).
  unfold newKeyInit. replace (na <=? nb) with false by lia. replace (na <? now) with false by lia. replace (now + MaxNotAfter <? na) with false by (unfold MaxNotAfter; lia).
  rewrite (gi_sk _ _ _ _ _ GI). cbn [initSigKey keHash]. rewrite b64dec_enc by apply sha512_wf. rewrite R, beq_refl. cbn [negb]. rewrite sha512_len.
  change (64 <? 32) with false. cbn iota. rewrite (gi_sp _ _ _ _ _ GI). reflexivity.
Qed.
Definition xKI (dp : bytes) (now : N) : keyInit * bytes * bytes :=
  match newKeyInit toy (xId xS1 xE1) 0 (now + MaxNotAfter) 0 true (str "b.de") [] (str "nym") now dp xIV with Ok x => x | _ => (mkKI (mkKC [] 0 0 0 false [] [] [] []) [], [], []) end.
Example C113_ex : getOwn toy xAnn true (irun goUnicode toy xOps emptyIddb) = Ok (xId xS1 xE1, None) /\ uRepoURIs (idUid (xId xS1 xE1)) = [str "b.de"] /\
  newKeyInit toy (xId xS1 xE1) 0 (50 + MaxNotAfter) 0 true (str "b.de") [] (str "nym") 50 xE2 xIV = Ok (xKI xE2 50).
Proof. vm_compute. auto. Qed.

(* ------------------------------------------------------------------ *)
(* C114: the private key of a published KeyInit message is found by the hash of its public key, from then on for ever. *)
Lemma getPki_tins h (d : iddb) x : idsOk (dPki d) -> getPki h (mkIddb (dOwn d) (tins x (dPki d)) (dFki d)) =
  match tmin (fun _ r => beq (pkHash r) h) (dPki d) with
  | Some _ => getPki h d
  | None => if beq (pkHash x) h then (do ki <- newJSONKeyInit (pkInit x); Ok (Some (ki, pkSigPub x, pkPriv x))) else Ok None
  end.
Proof.
  intros I. unfold getPki. cbn [dPki]. rewrite (tmin_tins _ _ _ I). destruct (tmin (fun _ r => beq (pkHash r) h) (dPki d)) as [[n r]|]; [reflexivity|].
  destruct (beq (pkHash x) h); reflexivity.
Qed.
Lemma pki_step U C d o h : ownOk U C d -> tmin (fun _ r => beq (pkHash r) h) (dPki d) <> None ->
  tmin (fun _ r => beq (pkHash r) h) (dPki (istep U C d o)) = tmin (fun _ r => beq (pkHash r) h) (dPki d).
Proof.
  intros (_ & I2 & _) N. destruct o as [p le yl sp ep|p srv ks|p sp|p|p mix nym now now' dp iv srv ks|u srv]; cbn [istep].
  - destruct (ceGenerate U C p le yl sp ep d) as [d'| |] eqn:E; cbn [orElse]; try reflexivity. apply ceGenerate_ok in E as (id & dmn & e & i & _ & _ & _ & A).
    unfold addOwn in A. repeat (apply rbind_ok in A as (? & _ & A)). destruct (negb _); [discriminate|]. injection A as <-. reflexivity.
  - destruct (ceRegister_cases U C p srv ks d) as [[-> _]|(id & dmn & i & r & jsn & _ & _ & _ & _ & -> & _)]; reflexivity.
  - destruct (ceGenupdate U C p sp d) as [d'| |] eqn:E; cbn [orElse]; try reflexivity. apply ceGenupdate_ok in E as (id & i & r & n & _ & _ & _ & A).
    unfold addOwn in A. repeat (apply rbind_ok in A as (? & _ & A)). destruct (negb _); [discriminate|]. injection A as <-. reflexivity.
  - destruct (ceDelete U C p d) as [d'| |] eqn:E; cbn [orElse]; try reflexivity. apply ceDelete_ok in E as (id & i & r & _ & _ & ->). reflexivity.
  - destruct (ceAddKeyInit U C p mix nym now now' dp iv srv ks d) as [d'| |] eqn:E; cbn [orElse]; try reflexivity.
    apply ceAddKeyInit_ok in E as (id & dmn & i & r & ki & hh & priv & sig & _ & _ & _ & ->). unfold addPki. cbn [dPki]. rewrite (tmin_tins _ _ _ I2).
    destruct (tmin (fun _ r0 => beq (pkHash r0) h) (dPki d)); [reflexivity|congruence].
  - destruct (ceFetchKeyInit C u srv d) as [d'| |] eqn:E; cbn [orElse]; try reflexivity. apply ceFetchKeyInit_ok in E as (hh & s & ki & _ & _ & _ & ->). reflexivity.
Qed.
Lemma pki_run U C ops h : Forall iopWf ops -> forall d, ownOk U C d -> tmin (fun _ r => beq (pkHash r) h) (dPki d) <> None ->
  tmin (fun _ r => beq (pkHash r) h) (dPki (irun U C ops d)) = tmin (fun _ r => beq (pkHash r) h) (dPki d).
Proof.
  induction 1 as [|o ops W F IH]; intros d K N; [reflexivity|]. cbn [irun fold_left]. fold (irun U C ops (istep U C d o)).
  rewrite IH; [apply pki_step; assumption|apply ownOk_step; assumption|]. rewrite pki_step; assumption.
Qed.
Theorem C114_published_usable : forall U C ops p mix nym now now' dp iv srv ks d' later, let d := irun U C ops emptyIddb in Forall iopWf ops -> Forall iopWf later ->
  iopWf (IAddKeyInit p mix nym now now' dp iv srv ks) -> ceAddKeyInit U C p mix nym now now' dp iv srv ks d = Ok d' ->
  let h := keHash (initDHKey C dp) in (forall r, In r (dPki d) -> pkHash (snd r) <> h) ->
  cePrivateKeyEntry C h (irun U C later d') = Ok (initDHKey C dp, dp).
Proof.
  intros U C ops p mix nym now now' dp iv srv ks d' later d F F' W E h H. pose proof (ownOk_run U C ops emptyIddb (ownOk_empty U C) F) as K. fold d in K.
  assert (K' : ownOk U C d') by (pose proof (ownOk_step U C d (IAddKeyInit p mix nym now now' dp iv srv ks) K W) as X; cbn [istep] in X; rewrite E in X; exact X).
  destruct W as (Wt & Wm & Wn & Ld & Wd & Li & Wi).
  apply ceAddKeyInit_ok in E as (id & dmn & i & rep & ki & h' & priv & sig & M & G & KI & ->). destruct (reach_good U C ops id i rep F G) as (sp & ep & GI).
  pose proof (made_anchor U C i sp ep 0 (now + MaxNotAfter) 0 true dmn mix nym now' dp iv ki h' priv GI Wm Wn Li Wi KI) as SA.
  apply (newKeyInit_ok U C i sp ep) in KI; [|exact GI]. destruct KI as (_ & _ & _ & _ & _ & K6 & K7 & K8 & _ & _ & _ & _ & -> & ->).
  assert (Wk : kiWf ki) by (unfold kiWf; rewrite K6, K7, K8; repeat split; try lia; exact Wt).
  assert (T : tmin (fun _ r => beq (pkHash r) h) (dPki (addPki ki (keHash (initDHKey C dp)) (kePub (uSigKey (idUid i))) (b64enc dp) sig d)) =
    Some (nextId (dPki d), mkPki (kcSigKeyHash (kiCont ki)) (keHash (initDHKey C dp)) (kiJSON ki) (kePub (uSigKey (idUid i))) (b64enc dp) sig)).
  { unfold addPki. cbn [dPki]. rewrite (tmin_tins _ _ _ (proj1 (proj2 K))). rewrite tmin_none_intro; [|intros s Is; apply beq_neq, H, Is]. cbn [pkHash].
    unfold h. rewrite beq_refl. reflexivity. }
  unfold cePrivateKeyEntry, getPki. rewrite (pki_run U C later h F' _ K'); [|rewrite T; discriminate]. rewrite T. cbn [pkInit pkSigPub pkPriv].
  rewrite newJSONKeyInit_JSON by exact Wk. cbn [rbind]. unfold keyEntryECDHE. rewrite SA. cbn [rbind saKeys]. rewrite anchorKey_dh. cbn [rbind].
  unfold b64res. rewrite b64dec_enc by exact Wd. cbn [rbind]. unfold setPriv32. change (beq (keFunc (initDHKey C dp)) fECDHE) with true. rewrite Ld. reflexivity.
Qed.
Definition xSrv (ki : keyInit) : res (option (list (option bytes))) := Ok (Some [Some (signKI toy ki xS2)]).
Example C114_ex : is_ok (ceAddKeyInit goUnicode toy xAnn [] (str "nym") 50 50 xE2 xIV xSrv [b64enc (edpub toy xS2)] (irun goUnicode toy xOps emptyIddb)) = true /\
  iopWf (IAddKeyInit xAnn [] (str "nym") 50 50 xE2 xIV xSrv [b64enc (edpub toy xS2)]).
Proof. split; [vm_compute; reflexivity|]. cbn [iopWf]. repeat split; try reflexivity; apply wfbb_spec; reflexivity. Qed.

(* ------------------------------------------------------------------ *)
(* C115: only KeyInit messages signed by their owner are used.  Full statement (false): if a client uses a KeyInit message for a UID
   message, KeyInit.Verify accepts it.  The client never calls Verify, and the session anchor is encrypted under a hash of the public
   signature key.  Anyone who knows that public key can write the message: [forged] uses nothing else. *)
Definition forged (C : Crypto) (pk dp mix nym iv repo : bytes) (na : N) : keyInit :=
  let sa := saJSON (mkSA mix nym [initDHKey C dp]) in
  mkKI (mkKC ProtocolVersion 0 na 0 true (b64enc (sha512 C (sha512 C pk))) repo
    (b64enc (iv ++ xorb sa (ctr C (takeN 32 (sha512 C pk)) iv (lenN sa)))) (b64enc (sha512 C sa))) [].
Lemma getFki_tins h (d : iddb) x : idsOk (dFki d) -> tmin (fun _ r => beq (fkSigHash r) h) (dFki (mkIddb (dOwn d) (dPki d) (tins x (dFki d)))) =
  match tmin (fun _ r => beq (fkSigHash r) h) (dFki d) with Some y => Some y | None => if beq (fkSigHash x) h then Some (nextId (dFki d), x) else None end.
Proof. intros I. cbn [dFki]. rewrite (tmin_tins _ _ _ I). destruct (tmin (fun _ r => beq (fkSigHash r) h) (dFki d)); reflexivity. Qed.
Lemma fetched_used C u pk sa iv c sig h d : idsOk (dFki d) -> anchored C pk sa iv c -> kePub (uSigKey u) = b64enc pk -> wfb pk -> wfb iv -> lenN iv = 16 -> wfb (saJSON sa) ->
  sigKeyHash C (keHash (uSigKey u)) = Ok h -> h = kcSigKeyHash c -> kiWf (mkKI c sig) -> getFki h d = Ok None ->
  cePublicKeyEntry C u (addFki (mkKI c sig) d) = (do ke <- anchorKey fECDHE (saKeys sa); Ok (ke, saNym sa)).
Proof.
  intros I A P Wp Wi Li Ws S E Wk N. unfold cePublicKeyEntry. rewrite S. cbn [rbind]. unfold getFki, addFki in *. rewrite (getFki_tins _ _ _ I).
  destruct (tmin (fun _ r => beq (fkSigHash r) h) (dFki d)) as [[n r]|]; [destruct (newJSONKeyInit (fkInit r)); discriminate|]. cbn [fkSigHash kiCont].
  rewrite E, beq_refl. cbn [fkInit]. rewrite newJSONKeyInit_JSON by exact Wk. cbn [rbind]. rewrite P, (sessionAnchor_ok C pk sa iv c sig A Wp Wi Li Ws). reflexivity.
Qed.
Theorem C115_forged_used : forall U C ops u u0 pk dp mix nym iv repo na, let d := irun U C ops emptyIddb in Forall iopWf ops ->
  kePub (uSigKey u) = b64enc pk -> keHash (uSigKey u) = b64enc (sha512 C pk) -> wfb pk ->
  is_ok (sigKeyHash C (keHash (uSigKey u0))) = true -> wfb mix -> wfb nym -> lenN iv = 16 -> wfb iv -> na < 2 ^ 64 ->
  getFki (b64enc (sha512 C (sha512 C pk))) d = Ok None ->
  exists d', ceFetchKeyInit C u0 (fun _ => Ok (Some (kiJSON (forged C pk dp mix nym iv repo na)))) d = Ok d' /\ cePublicKeyEntry C u d' = Ok (initDHKey C dp, nym).
Proof.
  intros U C ops u u0 pk dp mix nym iv repo na d F P H Wp S Wm Wn Li Wi Ln N. pose proof (ownOk_run U C ops emptyIddb (ownOk_empty U C) F) as K. fold d in K.
  exists (addFki (forged C pk dp mix nym iv repo na) d). assert (Wk : kiWf (forged C pk dp mix nym iv repo na)) by (unfold kiWf, forged; cbn [kiCont kcMsgCount kcNotAfter kcNotBefore]; repeat split; lia).
  split.
  - unfold ceFetchKeyInit. destruct (sigKeyHash C (keHash (uSigKey u0))); try discriminate. cbn [rbind]. rewrite newJSONKeyInit_JSON by exact Wk. reflexivity.
  - unfold forged in *. rewrite (fetched_used C u pk (mkSA mix nym [initDHKey C dp]) iv _ [] (b64enc (sha512 C (sha512 C pk))) d); [reflexivity|apply K| |exact P|exact Wp|exact Wi|exact Li|apply wfb_sa1; assumption| |reflexivity|exact Wk|exact N].
    + unfold anchored. cbn [kcSigKeyHash kcAnchor kcAnchorHash]. auto.
    + unfold sigKeyHash. rewrite H, b64dec_enc by apply sha512_wf. reflexivity.
Qed.
Definition xForged : keyInit := forged toy (edpub toy xS1) xE2 [] (str "evil") xIV (str "b.de") 1000.
Theorem C115_refuted : exists C u srv d' ke nym ki, ceFetchKeyInit C u srv emptyIddb = Ok d' /\ cePublicKeyEntry C u d' = Ok (ke, nym) /\
  getFki (kcSigKeyHash (kiCont ki)) d' = Ok (Some ki) /\ (exists h, sigKeyHash C (keHash (uSigKey u)) = Ok h /\ h = kcSigKeyHash (kiCont ki)) /\
  forall now, verifyKI C ki (uRepoURIs u) (kePub (uSigKey u)) now <> Ok tt.
Proof.
  exists toy, (idUid (xId xS1 xE1)), (fun _ => Ok (Some (kiJSON xForged))), (addFki xForged emptyIddb), (initDHKey toy xE2), (str "evil"), xForged.
  split; [vm_compute; reflexivity|]. split; [vm_compute; reflexivity|]. split; [vm_compute; reflexivity|]. split.
  { exists (kcSigKeyHash (kiCont xForged)). split; [vm_compute; reflexivity|reflexivity]. }
  intros now H. assert (X : forall r, (if 1000 <? now then Err "uid: expired"%string else r) = Ok tt -> r = Ok tt) by (intros r; destruct (1000 <? now); [discriminate|auto]).
  assert (E : verifyKI toy xForged (uRepoURIs (idUid (xId xS1 xE1))) (kePub (uSigKey (idUid (xId xS1 xE1)))) now = if 1000 <? now then Err "uid: expired"%string else Err "uid: KeyInit signature invalid"%string).
  { unfold verifyKI. change (negb (existsb (beq (kcRepo (kiCont xForged))) (uRepoURIs (idUid (xId xS1 xE1))))) with false. cbn iota.
    assert (A : sessionAnchor toy xForged (kePub (uSigKey (idUid (xId xS1 xE1)))) = Ok (mkSA [] (str "evil") [initDHKey toy xE2])) by (vm_compute; reflexivity).
    rewrite A. cbn [rbind saKeys]. rewrite anchorKey_dh. cbn [rbind]. rewrite initDHKey_verify. cbn [rbind].
    change (kcNotAfter (kiCont xForged)) with 1000. change (kcNotBefore (kiCont xForged)) with 0. change (1000 <=? 0) with false. cbn iota.
    assert (B : checkSigP toy (kePub (uSigKey (idUid (xId xS1 xE1)))) (kcJSON (kiCont xForged)) (kiSig xForged) "uid: KeyInit signature invalid"%string = Err "uid: KeyInit signature invalid"%string) by (vm_compute; reflexivity).
    rewrite B. reflexivity. }
  rewrite E in H. apply X in H. discriminate H.
Qed.
(* What Verify would establish, if it were called. *)
Theorem C115_partial : forall C ki uris sigPub now, verifyKI C ki uris sigPub now = Ok tt ->
  In (kcRepo (kiCont ki)) uris /\ kcNotBefore (kiCont ki) < kcNotAfter (kiCont ki) /\ now <= kcNotAfter (kiCont ki) /\
  exists pk sig sa ke, b64dec sigPub = Some pk /\ lenN pk = 32 /\ b64dec (kiSig ki) = Some sig /\ edverify C pk (kcJSON (kiCont ki)) sig = true /\
    sessionAnchor C ki sigPub = Ok sa /\ In ke (saKeys sa) /\ keFunc ke = str "ECDHE25519" /\ keVerify C ke = Ok tt.
Proof.
  intros C ki uris sigPub now H. unfold verifyKI in H. destruct (existsb (beq (kcRepo (kiCont ki))) uris) eqn:EX; [|discriminate]. cbn [negb] in H.
  apply rbind_ok in H as (sa & SA & H). apply rbind_ok in H as (ke & KE & H). apply rbind_ok in H as ([] & KV & H).
  destruct (N.leb_spec (kcNotAfter (kiCont ki)) (kcNotBefore (kiCont ki))); [discriminate|]. destruct (N.ltb_spec (kcNotAfter (kiCont ki)) now); [discriminate|].
  unfold checkSigP in H. destruct (b64dec (kiSig ki)) as [sig|]; [|discriminate]. destruct (b64dec sigPub) as [pk|] eqn:PK; [|discriminate].
  destruct (N.eqb_spec (lenN pk) 32) as [L|]; [|discriminate]. cbn [negb] in H. destruct (edverify C pk (kcJSON (kiCont ki)) sig) eqn:V; [|discriminate].
  apply existsb_exists in EX as (r & Ir & Er). apply beq_spec in Er. subst r. split; [exact Ir|]. split; [lia|]. split; [lia|].
  exists pk, sig, sa, ke. do 5 (split; [first [reflexivity | exact L | exact V | exact SA]|]).
  assert (X : In ke (saKeys sa) /\ keFunc ke = fECDHE).
  { clear - KE. induction (saKeys sa) as [|k l IH]; [discriminate|]. cbn [anchorKey] in KE. destruct (beq (keFunc k) fECDHE) eqn:B.
    - injection KE as <-. split; [left; reflexivity|apply beq_spec; exact B].
    - destruct (IH KE) as (A1 & A2). split; [right; exact A1|exact A2]. }
  destruct X as (X1 & X2). split; [exact X1|]. split; [exact X2|exact KV].
Qed.
(* The signed hash fixes the anchor: two messages with the same SESSIONANCHORHASH cannot contain different anchors unless SHA512 collides on them. *)
Theorem C115_anchor_bound : forall C k1 k2 p1 p2 sa1 sa2, sessionAnchor C k1 p1 = Ok sa1 -> sessionAnchor C k2 p2 = Ok sa2 -> kcAnchorHash (kiCont k1) = kcAnchorHash (kiCont k2) ->
  (sha512 C (saJSON sa1) = sha512 C (saJSON sa2) -> saJSON sa1 = saJSON sa2) -> sa1 = sa2.
Proof.
  assert (X : forall C k p sa, sessionAnchor C k p = Ok sa -> kcAnchorHash (kiCont k) = b64enc (sha512 C (saJSON sa))).
  { intros C k p sa. unfold sessionAnchor. destruct (b64dec p); [|discriminate]. destruct (negb _); [discriminate|]. destruct (b64dec (kcAnchor (kiCont k))); [|discriminate].
    intros H. apply rbind_ok in H as (t & _ & H). apply rbind_ok in H as (s & _ & H). destruct (beq (kcAnchorHash (kiCont k)) (b64enc (sha512 C (saJSON s)))) eqn:B; [|discriminate].
    cbn [negb] in H. injection H as <-. apply beq_spec. exact B. }
  intros C k1 k2 p1 p2 sa1 sa2 A B E NC. apply X in A, B. apply saJSON_inj. apply NC. apply b64enc_inj; [apply sha512_wf|apply sha512_wf|congruence].
Qed.
Example C115_ex : getFki (b64enc (sha512 toy (sha512 toy (edpub toy xS1)))) (irun goUnicode toy xOps emptyIddb) = Ok None /\
  kePub (uSigKey (idUid (xId xS1 xE1))) = b64enc (edpub toy xS1) /\ keHash (uSigKey (idUid (xId xS1 xE1))) = b64enc (sha512 toy (edpub toy xS1)) /\
  verifyKI toy (fst (fst (xKI xE2 50))) [str "b.de"] (kePub (uSigKey (idUid (xId xS1 xE1)))) 60 = Ok tt.
Proof. vm_compute. auto. Qed.

(* ------------------------------------------------------------------ *)
(* C116: the KeyInit message fetched last is the one used.  Full statement (false): after fetching, GetPublicKeyEntry returns the key of
   the message just fetched.  The first message stored for a signature key is used for ever, whatever else is fetched. *)
Lemma fki_step U C d o h : ownOk U C d -> tmin (fun _ r => beq (fkSigHash r) h) (dFki d) <> None ->
  tmin (fun _ r => beq (fkSigHash r) h) (dFki (istep U C d o)) = tmin (fun _ r => beq (fkSigHash r) h) (dFki d).
Proof.
  intros (_ & _ & I3 & _) N. destruct o as [p le yl sp ep|p srv ks|p sp|p|p mix nym now now' dp iv srv ks|u srv]; cbn [istep].
  - destruct (ceGenerate U C p le yl sp ep d) as [d'| |] eqn:E; cbn [orElse]; try reflexivity. apply ceGenerate_ok in E as (id & dmn & e & i & _ & _ & _ & A).
    unfold addOwn in A. repeat (apply rbind_ok in A as (? & _ & A)). destruct (negb _); [discriminate|]. injection A as <-. reflexivity.
  - destruct (ceRegister_cases U C p srv ks d) as [[-> _]|(id & dmn & i & r & jsn & _ & _ & _ & _ & -> & _)]; reflexivity.
  - destruct (ceGenupdate U C p sp d) as [d'| |] eqn:E; cbn [orElse]; try reflexivity. apply ceGenupdate_ok in E as (id & i & r & n & _ & _ & _ & A).
    unfold addOwn in A. repeat (apply rbind_ok in A as (? & _ & A)). destruct (negb _); [discriminate|]. injection A as <-. reflexivity.
  - destruct (ceDelete U C p d) as [d'| |] eqn:E; cbn [orElse]; try reflexivity. apply ceDelete_ok in E as (id & i & r & _ & _ & ->). reflexivity.
  - destruct (ceAddKeyInit U C p mix nym now now' dp iv srv ks d) as [d'| |] eqn:E; cbn [orElse]; try reflexivity.
    apply ceAddKeyInit_ok in E as (id & dmn & i & r & ki & hh & priv & sig & _ & _ & _ & ->). reflexivity.
  - destruct (ceFetchKeyInit C u srv d) as [d'| |] eqn:E; cbn [orElse]; try reflexivity. apply ceFetchKeyInit_ok in E as (hh & s & ki & _ & _ & _ & ->).
    unfold addFki. cbn [dFki]. rewrite (tmin_tins _ _ _ I3). destruct (tmin (fun _ r0 => beq (fkSigHash r0) h) (dFki d)); [reflexivity|congruence].
Qed.
Lemma fki_run U C ops h : Forall iopWf ops -> forall d, ownOk U C d -> tmin (fun _ r => beq (fkSigHash r) h) (dFki d) <> None ->
  tmin (fun _ r => beq (fkSigHash r) h) (dFki (irun U C ops d)) = tmin (fun _ r => beq (fkSigHash r) h) (dFki d).
Proof.
  induction 1 as [|o ops W F IH]; intros d K N; [reflexivity|]. cbn [irun fold_left]. fold (irun U C ops (istep U C d o)).
  rewrite IH; [apply fki_step; assumption|apply ownOk_step; assumption|]. rewrite fki_step; assumption.
Qed.
Theorem C116_first_for_ever : forall U C ops later u h, let d := irun U C ops emptyIddb in Forall iopWf ops -> Forall iopWf later ->
  sigKeyHash C (keHash (uSigKey u)) = Ok h -> getFki h d <> Ok None ->
  cePublicKeyEntry C u (irun U C later d) = cePublicKeyEntry C u d.
Proof.
  intros U C ops later u h d F F' S N. pose proof (ownOk_run U C ops emptyIddb (ownOk_empty U C) F) as K. fold d in K.
  unfold cePublicKeyEntry. rewrite S. cbn [rbind]. unfold getFki in *. rewrite (fki_run U C later h F' d K); [reflexivity|].
  destruct (tmin (fun _ r => beq (fkSigHash r) h) (dFki d)); [discriminate|congruence].
Qed.
Definition xFetch (dp : bytes) (now : N) : iop := IFetchKeyInit (idUid (xId xS1 xE1)) (fun _ => Ok (Some (kiJSON (fst (fst (xKI dp now)))))).
Theorem C116_refuted : exists U C u ops srv d' ki sa ke nym, let d := irun U C ops emptyIddb in Forall iopWf ops /\
  ceFetchKeyInit C u srv d = Ok d' /\ (forall h, srv h = Ok (Some (kiJSON ki))) /\
  (forall now, 50 <= now <= 5000 -> verifyKI C ki (uRepoURIs u) (kePub (uSigKey u)) now = Ok tt) /\
  sessionAnchor C ki (kePub (uSigKey u)) = Ok sa /\ cePublicKeyEntry C u d' = Ok (ke, nym) /\ ~ In ke (saKeys sa).
Proof.
  exists goUnicode, toy, (idUid (xId xS1 xE1)), [xFetch xE1 40], (fun _ => Ok (Some (kiJSON (fst (fst (xKI xE2 50)))))),
    (istep goUnicode toy (irun goUnicode toy [xFetch xE1 40] emptyIddb) (xFetch xE2 50)), (fst (fst (xKI xE2 50))), (mkSA [] (str "nym") [initDHKey toy xE2]), (initDHKey toy xE1), (str "nym").
  cbv zeta. split; [apply Forall_cons; [exact I|apply Forall_nil]|]. split; [vm_compute; reflexivity|]. split; [intros h; reflexivity|]. split.
  - intros now L.
    assert (F : Forall iopWf [IGenerate xAnn xLast 99 xS1 xE1]) by (apply Forall_cons; [cbn [iopWf]; repeat split; try reflexivity; apply wfbb_spec; reflexivity|apply Forall_nil]).
    assert (G : getOwn toy xAnn true (irun goUnicode toy [IGenerate xAnn xLast 99 xS1 xE1] emptyIddb) = Ok (xId xS1 xE1, None)) by (vm_compute; reflexivity).
    assert (KI : newKeyInit toy (xId xS1 xE1) 0 (50 + MaxNotAfter) 0 true (str "b.de") [] (str "nym") 50 xE2 xIV = Ok (fst (fst (xKI xE2 50)), snd (fst (xKI xE2 50)), snd (xKI xE2 50))) by (vm_compute; reflexivity).
    destruct (C113_keyinit_accepted goUnicode toy [IGenerate xAnn xLast 99 xS1 xE1] xAnn (xId xS1 xE1) None 0 (50 + MaxNotAfter) 0 true (str "b.de") [] (str "nym") 50 xE2 xIV _ _ _ F G
      (proj1 (wfbb_spec []) (eq_refl true)) (proj1 (wfbb_spec (str "nym")) (eq_refl true)) (eq_refl 32) (proj1 (wfbb_spec xE2) (eq_refl true)) (eq_refl 16) (proj1 (wfbb_spec xIV) (eq_refl true)) KI) as (V & _).
    rewrite V. unfold MaxNotAfter. replace (50 + 7776000 <? now) with false by lia. reflexivity.
  - split; [vm_compute; reflexivity|]. split; [vm_compute; reflexivity|]. intros [E|[]]. vm_compute in E. discriminate.
Qed.
(* It holds for the first message. *)
Theorem C116_partial : forall U C ops id i rep cnt na nb fb repo mix nym now dp iv ki h priv srv d' own, let d := irun U C ops emptyIddb in Forall iopWf ops -> Forall iopWf own ->
  getOwn C id true (irun U C own emptyIddb) = Ok (i, rep) -> wfb mix -> wfb nym -> lenN dp = 32 -> wfb dp -> lenN iv = 16 -> wfb iv -> cnt < 2 ^ 64 -> na < 2 ^ 64 ->
  newKeyInit C i cnt na nb fb repo mix nym now dp iv = Ok (ki, h, priv) -> (forall x, srv x = Ok (Some (kiJSON ki))) ->
  getFki (kcSigKeyHash (kiCont ki)) d = Ok None -> ceFetchKeyInit C (idUid i) srv d = Ok d' ->
  cePublicKeyEntry C (idUid i) d' = Ok (initDHKey C dp, nym).
Proof.
  intros U C ops id i rep cnt na nb fb repo mix nym now dp iv ki h priv srv d' own d F F' G Wm Wn Ld Wd Li Wi Lc Ln K S N E.
  pose proof (ownOk_run U C ops emptyIddb (ownOk_empty U C) F) as KO. fold d in KO. destruct (reach_good U C own id i rep F' G) as (sp & ep & GI).
  apply (newKeyInit_ok U C i sp ep) in K; [|exact GI]. destruct K as (K1 & _ & _ & _ & _ & K6 & K7 & K8 & _ & _ & A & _ & _ & _).
  apply ceFetchKeyInit_ok in E as (hh & s & ki' & SH & S' & J & ->). rewrite S in S'. injection S' as <-.
  assert (Wk : kiWf ki) by (unfold kiWf; rewrite K6, K7, K8; repeat split; lia). rewrite newJSONKeyInit_JSON in J by exact Wk. injection J as <-.
  destruct ki as [c sg]. cbn [kiCont] in *.
  assert (SK : sigKeyHash C (keHash (uSigKey (idUid i))) = Ok (kcSigKeyHash c)).
  { unfold sigKeyHash. rewrite (gi_sk _ _ _ _ _ GI). cbn [initSigKey keHash]. rewrite b64dec_enc by apply sha512_wf. destruct A as (-> & _). reflexivity. }
  rewrite (fetched_used C (idUid i) (edpub C sp) (mkSA mix nym [initDHKey C dp]) iv c sg (kcSigKeyHash c) d); [reflexivity|apply KO|exact A| |apply edpub_wf|exact Wi|exact Li|apply wfb_sa1; assumption|exact SK|reflexivity|exact Wk|exact N].
  rewrite (gi_sk _ _ _ _ _ GI). reflexivity.
Qed.
Example C116_ex : getFki (kcSigKeyHash (kiCont (fst (fst (xKI xE2 50))))) emptyIddb = Ok None /\
  getFki (kcSigKeyHash (kiCont (fst (fst (xKI xE2 50))))) (irun goUnicode toy [xFetch xE1 40] emptyIddb) <> Ok None.
Proof. split; [reflexivity|]. vm_compute. discriminate. Qed.

(* ------------------------------------------------------------------ *)
(* C117: expired KeyInit messages are not used.  Full statement (false): GetPublicKeyEntry returns no key of a message that Verify calls expired.
   No time is looked at: what is stored first is used at every later time. *)
Theorem C117_used_for_ever : forall U C ops own id i rep cnt na nb fb repo mix nym now dp iv ki h priv srv d' later, let d := irun U C ops emptyIddb in
  Forall iopWf ops -> Forall iopWf own -> Forall iopWf later ->
  getOwn C id true (irun U C own emptyIddb) = Ok (i, rep) -> wfb mix -> wfb nym -> lenN dp = 32 -> wfb dp -> lenN iv = 16 -> wfb iv -> cnt < 2 ^ 64 -> na < 2 ^ 64 ->
  newKeyInit C i cnt na nb fb repo mix nym now dp iv = Ok (ki, h, priv) -> (forall x, srv x = Ok (Some (kiJSON ki))) ->
  getFki (kcSigKeyHash (kiCont ki)) d = Ok None -> ceFetchKeyInit C (idUid i) srv d = Ok d' ->
  cePublicKeyEntry C (idUid i) (irun U C later d') = Ok (initDHKey C dp, nym) /\
  forall now', na < now' -> verifyKI C ki (uRepoURIs (idUid i)) (kePub (uSigKey (idUid i))) now' = Err "uid: expired"%string.
Proof.
  intros U C ops own id i rep cnt na nb fb repo mix nym now dp iv ki h priv srv d' later d F F' F'' G Wm Wn Ld Wd Li Wi Lc Ln K S N E. split.
  - pose proof (C116_partial U C ops id i rep cnt na nb fb repo mix nym now dp iv ki h priv srv d' own F F' G Wm Wn Ld Wd Li Wi Lc Ln K S N E) as X.
    destruct (C113_keyinit_accepted U C own id i rep cnt na nb fb repo mix nym now dp iv ki h priv F' G Wm Wn Ld Wd Li Wi K) as (_ & _ & _ & _ & _ & _ & SK).
    assert (D : d' = irun U C (ops ++ [IFetchKeyInit (idUid i) srv]) emptyIddb).
    { unfold irun. rewrite fold_left_app. cbn [fold_left istep]. fold (irun U C ops emptyIddb). fold d. rewrite E. reflexivity. }
    rewrite D in *. rewrite (C116_first_for_ever U C (ops ++ [IFetchKeyInit (idUid i) srv]) later (idUid i) (kcSigKeyHash (kiCont ki))); [exact X| |exact F''|exact SK|].
    + apply Forall_app. split; [exact F|]. apply Forall_cons; [exact I|apply Forall_nil].
    + intros Q. unfold cePublicKeyEntry in X. rewrite SK in X. cbn [rbind] in X. rewrite Q in X. discriminate.
  - intros now' L. destruct (C113_keyinit_accepted U C own id i rep cnt na nb fb repo mix nym now dp iv ki h priv F' G Wm Wn Ld Wd Li Wi K) as (V & _).
    rewrite V. replace (na <? now') with true by lia. reflexivity.
Qed.
Theorem C117_refuted : exists C u srv d' ki now r, ceFetchKeyInit C u srv emptyIddb = Ok d' /\ cePublicKeyEntry C u d' = Ok r /\
  (exists h, sigKeyHash C (keHash (uSigKey u)) = Ok h /\ getFki h d' = Ok (Some ki)) /\ verifyKI C ki (uRepoURIs u) (kePub (uSigKey u)) now = Err "uid: expired"%string.
Proof.
  exists toy, (idUid (xId xS1 xE1)), (fun _ => Ok (Some (kiJSON (fst (fst (xKI xE2 50)))))), (addFki (fst (fst (xKI xE2 50))) emptyIddb), (fst (fst (xKI xE2 50))), 9000000, (initDHKey toy xE2, str "nym").
  split; [vm_compute; reflexivity|]. split; [vm_compute; reflexivity|]. split; [exists (kcSigKeyHash (kiCont (fst (fst (xKI xE2 50))))); split; vm_compute; reflexivity|]. vm_compute. reflexivity.
Qed.

(* ------------------------------------------------------------------ *)
(* C118: no answer of a key server makes reading a KeyInit message panic.  Full statement (false).  When it does: *)
Theorem C118_panic_iff : forall C ki sigPub, sessionAnchor C ki sigPub = Panic <->
  exists pk enc, b64dec sigPub = Some pk /\ kcSigKeyHash (kiCont ki) = b64enc (sha512 C (sha512 C pk)) /\ b64dec (kcAnchor (kiCont ki)) = Some enc /\ lenN enc < 16.
Proof.
  intros C ki sigPub. unfold sessionAnchor. destruct (b64dec sigPub) as [pk|]; [|split; [discriminate|intros (p & e & X & _); discriminate]].
  destruct (beq (kcSigKeyHash (kiCont ki)) (b64enc (sha512 C (sha512 C pk)))) eqn:B; cbn [negb].
  2:{ split; [discriminate|]. intros (p & e & X & Y & _). injection X as <-. rewrite Y, beq_refl in B. discriminate. }
  destruct (b64dec (kcAnchor (kiCont ki))) as [enc|]; [|split; [discriminate|intros (p & e & _ & _ & X & _); discriminate]].
  unfold ctrDecrypt. rewrite lenN_takeN, sha512_len. change (negb (N.min 32 64 =? 32)) with false. cbn iota. apply beq_spec in B.
  destruct (N.ltb_spec (lenN enc) 16).
  - cbn [rbind]. split; [|reflexivity]. intros _. exists pk, enc. auto.
  - cbn [rbind]. split; [|intros (p & e & _ & _ & X & Y); injection X as <-; lia]. intros X. exfalso. revert X. unfold newJSONAnchor.
    destruct (jparse _) as [v|]; [|discriminate]. destruct (saOfJson v); [|discriminate]. cbn [rbind]. destruct (negb _); discriminate.
Qed.
Definition xShort : keyInit := mkKI (mkKC ProtocolVersion 0 1 0 true (b64enc (sha512 toy (sha512 toy (edpub toy xS1)))) [] [] []) [].
Theorem C118_refuted : exists C u s d', ceFetchKeyInit C u (fun _ => Ok (Some s)) emptyIddb = Ok d' /\ cePublicKeyEntry C u d' = Panic.
Proof.
  exists toy, (idUid (xId xS1 xE1)), (kiJSON xShort), (addFki xShort emptyIddb). split; vm_compute; reflexivity.
Qed.
(* With anchors of at least sixteen bytes there is no panic. *)
Theorem C118_partial : forall C u d, (forall h ki enc, getFki h d = Ok (Some ki) -> b64dec (kcAnchor (kiCont ki)) = Some enc -> 16 <= lenN enc) -> cePublicKeyEntry C u d <> Panic.
Proof.
  intros C u d H. unfold cePublicKeyEntry. destruct (sigKeyHash C (keHash (uSigKey u))) as [h| |] eqn:S; [|discriminate|].
  2:{ unfold sigKeyHash in S. destruct (b64dec (keHash (uSigKey u))); discriminate. }
  cbn [rbind]. destruct (getFki h d) as [[ki|]| |] eqn:G; cbn [rbind]; try discriminate.
  - destruct (sessionAnchor C ki (kePub (uSigKey u))) as [sa| |] eqn:A; cbn [rbind]; try discriminate.
    + destruct (anchorKey fECDHE (saKeys sa)) eqn:K; cbn [rbind]; try discriminate. exfalso. clear - K. induction (saKeys sa) as [|k l IH]; [discriminate|].
      cbn [anchorKey] in K. destruct (beq (keFunc k) fECDHE); [discriminate|exact (IH K)].
    + apply C118_panic_iff in A as (pk & enc & _ & _ & B & L). specialize (H h ki enc G B). lia.
  - unfold getFki in G. destruct (tmin _ _) as [[n r]|]; [|discriminate]. unfold newJSONKeyInit in G. destruct (jparse (fkInit r)) as [v|]; [|discriminate]. destruct (kiOfJson v); discriminate.
Qed.
Lemma someEq {A} (a b : A) : Some a = Some b -> a = b.
Proof. congruence. Qed.
Example C118_ex : forall h ki enc, getFki h (addFki (fst (fst (xKI xE2 50))) emptyIddb) = Ok (Some ki) -> b64dec (kcAnchor (kiCont ki)) = Some enc -> 16 <= lenN enc.
Proof.
  intros h ki enc. unfold getFki. unfold addFki. rewrite getFki_tins by (apply (ownOk_empty goUnicode toy)). cbn [emptyIddb dFki tmin]. destruct (beq _ h); [|discriminate].
  cbn [fkInit]. assert (E : newJSONKeyInit (kiJSON (fst (fst (xKI xE2 50)))) = Ok (fst (fst (xKI xE2 50)))) by (vm_compute; reflexivity).
  rewrite E. cbn [rbind]. intros X. apply Ok_inj, someEq in X. rewrite <- X. clear X E. assert (B : b64dec (kcAnchor (kiCont (fst (fst (xKI xE2 50))))) = Some (match b64dec (kcAnchor (kiCont (fst (fst (xKI xE2 50))))) with Some e => e | None => [] end)) by (vm_compute; reflexivity).
  rewrite B. intros Y. apply someEq in Y. rewrite <- Y. vm_compute. discriminate.
Qed.

(* ------------------------------------------------------------------ *)
(* C119: key entries made by the package pass its own check.  Full statement (false): InitDHKey and initSigKey make entries that Verify
   accepts.  Verify looks for the function "ED25510": no signature key passes. *)
Theorem C119_signature_keys : forall C sp, keVerify C (initSigKey C sp) = Err "uid: unknown ke.FUNCTION"%string.
Proof. reflexivity. Qed.
Theorem C119_refuted : exists C sp, lenN sp = 64 /\ keVerify C (initSigKey C sp) <> Ok tt.
Proof. exists toy, xS1. split; [vm_compute; reflexivity|]. rewrite C119_signature_keys. discriminate. Qed.
Theorem C119_partial : forall C dp, keVerify C (initDHKey C dp) = Ok tt.
Proof. intros C dp. apply initDHKey_verify. Qed.
(* What Verify accepts: entries of the cipher suite whose hash is the hash of a key of 32 bytes. *)
Theorem C119_spec : forall C k, keVerify C k = Ok tt <-> keSuite k = DefaultCiphersuite /\ (keFunc k = str "ECDHE25519" \/ keFunc k = str "ED25510") /\
  exists pk h, b64dec (kePub k) = Some pk /\ lenN pk = 32 /\ b64dec (keHash k) = Some h /\ h = sha512 C pk.
Proof.
  intros C k. unfold keVerify. destruct (beq (keSuite k) DefaultCiphersuite) eqn:S; cbn [negb].
  2:{ apply beq_neq in S. split; [discriminate|intros [X _]; congruence]. }
  apply beq_spec in S. destruct (negb (beq (keFunc k) (str "ED25510")) && negb (beq (keFunc k) fECDHE)) eqn:FN.
  { apply andb_true_iff in FN as (A & B). apply negb_true_iff in A, B. apply beq_neq in A, B. split; [discriminate|]. intros (_ & [X|X] & _); [elim B; exact X|elim A; exact X]. }
  assert (FO : keFunc k = str "ECDHE25519" \/ keFunc k = str "ED25510").
  { apply andb_false_iff in FN as [A|A]; apply negb_false_iff, beq_spec in A; [right; exact A|left; exact A]. }
  destruct (b64dec (keHash k)) as [h|]; [|split; [discriminate|intros (_ & _ & p & x & _ & _ & X & _); discriminate]].
  destruct (N.eqb_spec (lenN h) 64) as [Lh|Lh]; cbn [negb].
  2:{ split; [discriminate|]. intros (_ & _ & p & x & _ & _ & X & Y). injection X as <-. rewrite Y, sha512_len in Lh. congruence. }
  destruct (b64dec (kePub k)) as [pk|]; [|split; [discriminate|intros (_ & _ & p & x & X & _); discriminate]].
  destruct (N.eqb_spec (lenN pk) 32) as [Lp|Lp]; cbn [negb].
  2:{ split; [discriminate|]. intros (_ & _ & p & x & X & Y & _). injection X as <-. congruence. }
  destruct (beq (sha512 C pk) h) eqn:B; cbn [negb].
  - apply beq_spec in B. split; [|reflexivity]. intros _. split; [exact S|]. split; [exact FO|]. exists pk, h. auto.
  - apply beq_neq in B. split; [discriminate|]. intros (_ & _ & p & x & X & _ & Y & Z). injection X as <-. injection Y as <-. congruence.
Qed.
Example C119_ex : keVerify toy (initDHKey toy xE1) = Ok tt.
Proof. vm_compute. reflexivity. Qed.

(* ------------------------------------------------------------------ *)
(* C120: signed nonces. *)
Theorem C120_round_trip : forall U C ops id i rep now n s, Forall iopWf ops -> getOwn C id true (irun U C ops emptyIddb) = Ok (i, rep) ->
  signNonce C i now = Ok (n, s) -> n = now /\ verifyNonce C (kePub (uSigKey (idUid i))) n s = Ok tt.
Proof.
  intros U C ops id i rep now n s F G H. destruct (reach_good U C ops id i rep F G) as (sp & ep & GI). unfold signNonce in H. rewrite (gi_sp _ _ _ _ _ GI) in H. cbn [signWith rbind] in H.
  apply Ok_inj in H. apply pairEq in H as (<- & <-). split; [reflexivity|]. unfold verifyNonce. rewrite (gi_sk _ _ _ _ _ GI). apply checkSig_ok.
Qed.
(* What VerifyNonce accepts. *)
Theorem C120_bound : forall C p n s, verifyNonce C p n s = Ok tt <-> exists pk sig, b64dec p = Some pk /\ lenN pk = 32 /\ b64dec s = Some sig /\ edverify C pk (le 8 n) sig = true.
Proof.
  intros C p n s. unfold verifyNonce. rewrite toByte8_le. unfold checkSig. destruct (b64dec s) as [sig|]; [|split; [discriminate|intros (pk & sg & _ & _ & X & _); discriminate]].
  destruct (b64dec p) as [pk|]; [|split; [discriminate|intros (pk & sg & X & _); discriminate]].
  destruct (N.eqb_spec (lenN pk) 32) as [L|L]; cbn [negb]; [|split; [discriminate|intros (q & sg & X & Y & _); injection X as <-; congruence]].
  destruct (edverify C pk (le 8 n) sig) eqn:V.
  - split; [|reflexivity]. intros _. exists pk, sig. auto.
  - split; [discriminate|]. intros (q & sg & X & _ & Y & Z). injection X as <-. injection Y as <-. congruence.
Qed.
(* Different nonces are different texts: a signature for one is not a signature for the other. *)
Theorem C120_nonces_differ : forall n m, n < 2 ^ 64 -> m < 2 ^ 64 -> toByte8 n = toByte8 m -> n = m.
Proof. intros n m A B E. apply toUint64_toByte8 in A, B. rewrite E in A. congruence. Qed.
Example C120_ex : getOwn toy xAnn true (irun goUnicode toy xOps emptyIddb) = Ok (xId xS1 xE1, None) /\ is_ok (signNonce toy (xId xS1 xE1) 5) = true.
Proof. vm_compute. auto. Qed.

Print Assumptions C106_created_accepted.
Print Assumptions C106_create_total.
Print Assumptions C106_accepted_iff.
Print Assumptions C107_history_accepted.
Print Assumptions C107_successor_spec.
Print Assumptions C108_own_usable.
Print Assumptions C108_generated.
Print Assumptions C108_updated.
Print Assumptions C108_update_total.
Print Assumptions C108_others_kept.
Print Assumptions C109_delete_undoes_update.
Print Assumptions C109_refuted.
Print Assumptions C109_left_iff.
Print Assumptions C109_partial.
Print Assumptions C121_generated_again.
Print Assumptions C121_refuted.
Print Assumptions C121_partial.
Print Assumptions C110_stuck.
Print Assumptions C110_refuted.
Print Assumptions C110_partial.
Print Assumptions C112_round_trip.
Print Assumptions C111_any_message.
Print Assumptions C111_refuted.
Print Assumptions C111_partial.
Print Assumptions C113_keyinit_accepted.
Print Assumptions C113_keyinit_total.
Print Assumptions C114_published_usable.
Print Assumptions C115_forged_used.
Print Assumptions C115_refuted.
Print Assumptions C115_partial.
Print Assumptions C115_anchor_bound.
Print Assumptions C116_first_for_ever.
Print Assumptions C116_refuted.
Print Assumptions C116_partial.
Print Assumptions C117_used_for_ever.
Print Assumptions C117_refuted.
Print Assumptions C118_panic_iff.
Print Assumptions C118_refuted.
Print Assumptions C118_partial.
Print Assumptions C119_signature_keys.
Print Assumptions C119_refuted.
Print Assumptions C119_partial.
Print Assumptions C119_spec.
Print Assumptions C120_round_trip.
Print Assumptions C120_bound.
Print Assumptions C120_nonces_differ.
