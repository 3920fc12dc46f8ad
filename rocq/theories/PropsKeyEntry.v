(* C204: the public and private key that a key entry hands out. *)
From Verif Require Import Base Base64Model Base64Proofs IdentityProofs CryptoModel StoreModel KeysModel HeaderModel UidModel KeyEntryModel.
Local Open Scope N_scope.

(* ------------------------------------------------------------------ *)
(* The specification.  An entry is for Diffie-Hellman or for signatures; the private keys have 32 and 64 bytes. *)
Definition isDH (f : list N) : Prop := f = str "ECDHE25519".
Definition isSig (f : list N) : Prop := f = str "ED25519".
Definition names (text k : list N) : Prop := b64dec text = Some k /\ lenN k = 32.
(* keys that are generated have the right length; generating does not fail *)
Definition sound (x : kop) : Prop :=
  match x with KInitDH z => exists k, z = Some k /\ lenN k = 32 /\ wfb k | KInitSig z => exists k, z = Some k /\ lenN k = 64 /\ wfb k | _ => True end.
(* The private key after some steps: the one last generated, or given in the right size for the kind of entry.  [sig] is that
   kind; None is no known kind. *)
Fixpoint history (sig : option bool) (key : option (list N)) (ops : list kop) : option bool * option (list N) :=
  match ops with
  | [] => (sig, key)
  | KInitDH z :: r => history (Some false) z r
  | KInitSig z :: r => history (Some true) z r
  | KPublic :: r => history sig key r
  | KSetPriv s :: r =>
    history sig (match sig, b64dec s with
                 | Some b, Some k => if lenN k =? (if b then 64 else 32) then Some k else key
                 | _, _ => key
                 end) r
  end.
Definition kindOf (f : list N) : option bool := if beq f (str "ECDHE25519") then Some false else if beq f (str "ED25519") then Some true else None.

Section Props.
Variable C : Crypto.
Definition krun (ops : list kop) (o : keyObj) : keyObj := fold_left (kstep C) ops o.

(* ------------------------------------------------------------------ *)
Lemma dh_not_sig : beq (str "ED25519") (str "ECDHE25519") = false.
Proof. reflexivity. Qed.
Lemma into_exact n k : lenN k = n -> intoArray n k = k.
Proof. intros L. unfold intoArray. apply takeN_app, L. Qed.
Lemma kind_dh f : kindOf f = Some false <-> isDH f.
Proof. unfold kindOf, isDH. destruct (beq f (str "ECDHE25519")) eqn:A; [apply beq_spec in A; split; auto|]. apply beq_neq in A. destruct (beq f (str "ED25519")); split; intros H; congruence. Qed.
Lemma kind_sig f : kindOf f = Some true <-> isSig f.
Proof.
  unfold kindOf, isSig. destruct (beq f (str "ECDHE25519")) eqn:A; [apply beq_spec in A; split; intros H; [discriminate H|subst f; vm_compute in H; discriminate H]|].
  destruct (beq f (str "ED25519")) eqn:B; [apply beq_spec in B; split; auto|]. apply beq_neq in B. split; intros H; congruence.
Qed.
Lemma kind_beq f : beq f (str "ECDHE25519") = true /\ kindOf f = Some false /\ isDH f \/
  beq f (str "ECDHE25519") = false /\ beq f (str "ED25519") = true /\ kindOf f = Some true /\ isSig f \/
  beq f (str "ECDHE25519") = false /\ beq f (str "ED25519") = false /\ kindOf f = None /\ ~ isDH f /\ ~ isSig f.
Proof.
  unfold kindOf, isDH, isSig. destruct (beq f (str "ECDHE25519")) eqn:A; [left; apply beq_spec in A; repeat split; exact A|]. right.
  destruct (beq f (str "ED25519")) eqn:B; [left; apply beq_spec in B; repeat split; exact B|right]. apply beq_neq in A, B. repeat split; assumption.
Qed.
Lemma not_both f : isDH f -> isSig f -> False.
Proof. intros A B. rewrite A in B. vm_compute in B. discriminate B. Qed.
(* what holds of the cache *)
Definition cacheOk (o : keyObj) : Prop :=
  if oPubSet o then exists d, b64dec (oPubkey o) = Some d /\
    (isDH (oFunc o) -> exists p, oDh o = Some p /\ dhPub p = if lenN d =? 32 then Some d else None) /\
    (isSig (oFunc o) -> exists p, oEd o = Some p /\ edPub p = if lenN d =? 32 then d else [])
  else (forall p, oDh o = Some p -> dhPub p = None) /\ (forall p, oEd o = Some p -> edPub p = []).
Definition privOk (o : keyObj) (key : option bytes) : Prop :=
  match key with
  | None => oPrivSet o = false
  | Some k => oPrivSet o = true /\
    (isDH (oFunc o) /\ (exists p, oDh o = Some p /\ dhPriv p = Some k) \/ isSig (oFunc o) /\ lenN k = 64 /\ exists p, oEd o = Some p /\ edPriv p = k)
  end.
Lemma cache_fill o o' : cacheOk o -> fillPub o = Ok o' -> cacheOk o' /\ oPubSet o' = true /\ oFunc o' = oFunc o /\ oPubkey o' = oPubkey o.
Proof.
  unfold fillPub. destruct (oPubSet o) eqn:PS; [intros CO H; assert (o = o') as <- by congruence; auto|]. intros CO H. unfold cacheOk in CO. rewrite PS in CO. destruct CO as [CD CE].
  destruct (b64dec (oPubkey o)) as [d|] eqn:D; [|discriminate H].
  destruct (kind_beq (oFunc o)) as [(A & _ & KD)|[(A & B & _ & KS)|(A & B & _ & N1 & N2)]]; rewrite A in H; try rewrite B in H;
    match type of H with Ok ?x = Ok _ => assert (x = o') as <- by congruence end; clear H; (split; [|repeat split; reflexivity]); unfold cacheOk; cbn [oPubSet oPubkey oFunc oDh oEd]; exists d; (split; [exact D|]).
  - split; [|intros X; destruct (not_both _ KD X)]. intros _. eexists. split; [reflexivity|]. unfold dhSetPub. destruct (lenN d =? 32); cbn [snd dhPub]; [reflexivity|].
    destruct (oDh o) as [p|]; [apply (CD p eq_refl)|reflexivity].
  - split; [intros X; destruct (not_both _ X KS)|]. intros _. eexists. split; [reflexivity|]. unfold edSetPub. destruct (lenN d =? 32); cbn [snd edPub]; [reflexivity|].
    destruct (oEd o) as [p|]; [apply (CE p eq_refl)|reflexivity].
  - split; intros X; contradiction.
Qed.
Lemma priv_fill o o' key : privOk o key -> fillPub o = Ok o' -> privOk o' key.
Proof.
  unfold fillPub. destruct (oPubSet o); [congruence|]. intros P H. destruct (b64dec (oPubkey o)) as [d|]; [|discriminate H].
  destruct (kind_beq (oFunc o)) as [(A & _ & KD)|[(A & B & _ & KS)|(A & B & _ & N1 & N2)]]; rewrite A in H; try rewrite B in H;
    match type of H with Ok ?x = Ok _ => assert (x = o') as <- by congruence end; clear H; unfold privOk in *; cbn [oPrivSet oFunc oDh oEd]; destruct key as [k|]; try exact P; destruct P as [PS P]; (split; [exact PS|]).
  - destruct P as [(_ & p & E & Q)|(X & _)]; [|destruct (not_both _ KD X)]. left. split; [exact KD|]. eexists. split; [reflexivity|]. rewrite E. unfold dhSetPub. destruct (lenN d =? 32); exact Q.
  - destruct P as [(X & _)|(_ & L & p & E & Q)]; [destruct (not_both _ X KS)|]. right. split; [exact KS|]. split; [exact L|]. eexists. split; [reflexivity|]. rewrite E. unfold edSetPub. destruct (lenN d =? 32); exact Q.
Qed.
Lemma snd_public o : snd (publicKey32 o) = match fillPub o with Ok o' => o' | _ => o end.
Proof. unfold publicKey32. destruct (fillPub o); reflexivity. Qed.
Lemma b64_32 k : wfb k -> b64dec (b64enc k) = Some k.
Proof. apply b64dec_enc. Qed.
Lemma cache_step o x : cacheOk o -> sound x -> cacheOk (kstep C o x).
Proof.
  intros CO SX. destruct x as [z|z| |s]; cbn [kstep sound] in *.
  - destruct SX as (k & -> & L & W). unfold cacheOk. cbn [oInitDH snd oPubSet oPubkey oFunc oDh oEd]. exists (dhpub C k). split; [apply b64_32, dhpub_wf|].
    rewrite dhpub_len. split; [|intros X; vm_compute in X; discriminate X]. intros _. eexists. split; reflexivity.
  - destruct SX as (k & -> & L & W). unfold cacheOk. cbn [oInitSig snd oPubSet oPubkey oFunc oDh oEd]. rewrite (into_exact 32) by apply edpub_len. exists (edpub C k). split; [apply b64_32, edpub_wf|].
    rewrite edpub_len. split; [intros X; vm_compute in X; discriminate X|]. intros _. eexists. split; reflexivity.
  - rewrite snd_public. destruct (fillPub o) as [o'|e|] eqn:F; try exact CO. apply (cache_fill _ _ CO F).
  - unfold oSetPrivate. destruct (b64dec s) as [key|]; [|exact CO]. unfold setPrivate. destruct (kind_beq (oFunc o)) as [(A & _ & KD)|[(A & B & _ & KS)|(A & B & _ & N1 & N2)]]; rewrite A; try rewrite B; try exact CO.
    + unfold dhSetPriv. set (p0 := match oDh o with Some p => p | None => _ end). unfold cacheOk in *. destruct (lenN key =? 32); cbn [snd oPubSet oPubkey oFunc oDh oEd];
        (destruct (oPubSet o); [destruct CO as (d & D & E1 & E2); exists d; split; [exact D|]; split; [|exact E2]; intros X; destruct (E1 X) as (p & E & Q); eexists; (split; [reflexivity|]); subst p0; rewrite E; exact Q|
          destruct CO as [E1 E2]; split; [|exact E2]; intros p H; assert (p0 = p0) by reflexivity; destruct (oDh o) as [q|] eqn:OD; subst p0;
          [specialize (E1 q eq_refl)|assert (dhPub (mkDh None None) = None) as E1' by reflexivity]; match type of H with Some ?x = Some _ => assert (x = p) as <- by congruence end; assumption || reflexivity]).
    + unfold edSetPriv. set (p0 := match oEd o with Some p => p | None => _ end). unfold cacheOk in *. destruct (lenN key =? 64); cbn [snd oPubSet oPubkey oFunc oDh oEd];
        (destruct (oPubSet o); [destruct CO as (d & D & E1 & E2); exists d; split; [exact D|]; split; [exact E1|]; intros X; destruct (E2 X) as (p & E & Q); eexists; (split; [reflexivity|]); subst p0; rewrite E; exact Q|
          destruct CO as [E1 E2]; split; [exact E1|]; intros p H; destruct (oEd o) as [q|] eqn:OD; subst p0;
          [specialize (E2 q eq_refl)|]; match type of H with Some ?x = Some _ => assert (x = p) as <- by congruence end; assumption || reflexivity]).
Qed.
Lemma priv_step o x key : privOk o key -> sound x -> let (sg, key') := history (kindOf (oFunc o)) key [x] in kindOf (oFunc (kstep C o x)) = sg /\ privOk (kstep C o x) key'.
Proof.
  intros P SX. destruct x as [z|z| |s]; cbn [kstep sound history] in *.
  - destruct SX as (k & -> & L & W). split; [reflexivity|]. split; [reflexivity|]. left. split; [reflexivity|]. eexists. split; reflexivity.
  - destruct SX as (k & -> & L & W). split; [reflexivity|]. split; [reflexivity|]. right. split; [reflexivity|]. split; [exact L|]. eexists. split; reflexivity.
  - rewrite snd_public. destruct (fillPub o) as [o'|e|] eqn:F; try (split; [reflexivity|exact P]). split; [|eapply priv_fill; eassumption].
    f_equal. unfold fillPub in F. destruct (oPubSet o); [congruence|]. destruct (b64dec (oPubkey o)); [|discriminate F]. destruct (beq (oFunc o) _); [|destruct (beq (oFunc o) _)];
      match type of F with Ok ?x = Ok _ => assert (x = o') as <- by congruence end; reflexivity.
  - unfold oSetPrivate. destruct (b64dec s) as [k|]; [|destruct (kindOf (oFunc o)) eqn:E; (split; [exact E|exact P])]. unfold setPrivate.
    destruct (kind_beq (oFunc o)) as [(A & K & KD)|[(A & B & K & KS)|(A & B & K & N1 & N2)]]; rewrite A, K; try rewrite B.
    + unfold dhSetPriv. destruct (lenN k =? 32) eqn:L; cbn [snd oFunc]; (split; [exact K|]).
      * split; [reflexivity|]. left. split; [exact KD|]. eexists. split; reflexivity.
      * unfold privOk in *. destruct key as [k0|]; cbn [oPrivSet oFunc oDh oEd]; [|exact P]. destruct P as [PS [(_ & p & E & Q)|(X & _)]]; [|destruct (not_both _ KD X)].
        split; [exact PS|]. left. split; [exact KD|]. eexists. split; [reflexivity|]. rewrite E. exact Q.
    + unfold edSetPriv. destruct (lenN k =? 64) eqn:L; cbn [snd oFunc]; (split; [exact K|]).
      * apply N.eqb_eq in L. split; [reflexivity|]. right. split; [exact KS|]. split; [exact L|]. eexists. split; reflexivity.
      * unfold privOk in *. destruct key as [k0|]; cbn [oPrivSet oFunc oDh oEd]; [|exact P]. destruct P as [PS [(X & _)|(_ & L0 & p & E & Q)]]; [destruct (not_both _ X KS)|].
        split; [exact PS|]. right. split; [exact KS|]. split; [exact L0|]. eexists. split; [reflexivity|]. rewrite E. exact Q.
    + cbn [snd]. split; [exact K|exact P].
Qed.
Lemma cache_run ops : Forall sound ops -> forall o, cacheOk o -> cacheOk (krun ops o).
Proof. induction 1 as [|x ops S F IH]; intros o CO; cbn; [exact CO|]. apply IH, cache_step; assumption. Qed.
Lemma history_cons x ops sg key : history sg key (x :: ops) = let (a, b) := history sg key [x] in history a b ops.
Proof. destruct x; reflexivity. Qed.
Lemma priv_run ops : Forall sound ops -> forall o key, privOk o key -> let (sg, key') := history (kindOf (oFunc o)) key ops in kindOf (oFunc (krun ops o)) = sg /\ privOk (krun ops o) key'.
Proof.
  induction 1 as [|x ops S F IH]; intros o key P; [split; [reflexivity|exact P]|]. rewrite history_cons. pose proof (priv_step o x key P S) as Q.
  destruct (history (kindOf (oFunc o)) key [x]) as [a b]. destruct Q as [Q1 Q2]. subst a. exact (IH _ _ Q2).
Qed.
Lemma cache_loaded f h p : cacheOk (loadedObj f h p).
Proof. split; intros q X; discriminate X. Qed.

(* ------------------------------------------------------------------ *)
(* Whatever was done with an entry before: if PUBKEY is the text of a key, this key is handed out. *)
Theorem C204_public : forall f h p ops k, let o := krun ops (loadedObj f h p) in Forall sound ops ->
  isDH (oFunc o) \/ isSig (oFunc o) -> names (oPubkey o) k -> fst (publicKey32 o) = Ok (Some k).
Proof.
  intros f h p ops k o S K [D L]. pose proof (cache_run ops S _ (cache_loaded f h p)) as CO. fold o in CO. clearbody o. unfold publicKey32.
  destruct (fillPub o) as [o'|e|] eqn:F.
  - destruct (cache_fill _ _ CO F) as (CO' & PS & EF & EP). unfold cacheOk in CO'. rewrite PS, EP, EF, D in CO'. destruct CO' as (d & D' & E1 & E2). assert (d = k) as -> by congruence. cbn [fst].
    rewrite L in E1, E2. change (32 =? 32) with true in E1, E2. cbv iota in E1, E2. rewrite EF.
    destruct (kind_beq (oFunc o)) as [(A & _ & KD)|[(A & B & _ & KS)|(A & B & _ & N1 & N2)]]; rewrite A; try rewrite B.
    + destruct (E1 KD) as (q & -> & Q). rewrite Q. reflexivity.
    + destruct (E2 KS) as (q & -> & ->). rewrite into_exact by exact L. reflexivity.
    + destruct K; contradiction.
  - unfold fillPub in F. rewrite D in F. destruct (oPubSet o); discriminate F.
  - unfold fillPub in F. rewrite D in F. destruct (oPubSet o); discriminate F.
Qed.
(* The full statement of C204 also has the other direction, that no other key is handed out; it is refuted below for signature
   keys.  For Diffie-Hellman keys it holds. *)
Theorem C204_dh_partial : forall f h p ops k, let o := krun ops (loadedObj f h p) in Forall sound ops ->
  isDH (oFunc o) -> fst (publicKey32 o) = Ok (Some k) -> names (oPubkey o) k.
Proof.
  intros f h p ops k o S K E. pose proof (cache_run ops S _ (cache_loaded f h p)) as CO. fold o in CO. clearbody o. unfold publicKey32 in E.
  destruct (fillPub o) as [o'|e|] eqn:F; try discriminate E. destruct (cache_fill _ _ CO F) as (CO' & PS & EF & EP). unfold cacheOk in CO'. rewrite PS, EP, EF in CO'.
  destruct CO' as (d & D' & E1 & _). destruct (E1 K) as (q & Q1 & Q2). cbn [fst] in E. rewrite EF, K, beq_refl, Q1, Q2 in E. destruct (lenN d =? 32) eqn:L; [|discriminate E].
  apply N.eqb_eq in L. assert (d = k) as <- by congruence. split; assumption.
Qed.
(* A generated key is handed out from then on, until another one is generated. *)
Definition noInit (x : kop) : Prop := match x with KPublic | KSetPriv _ => True | _ => False end.
Lemma step_noInit o x : noInit x -> oFunc (kstep C o x) = oFunc o /\ oPubkey (kstep C o x) = oPubkey o /\ sound x.
Proof.
  destruct x as [z|z| |s]; intros []; cbn [kstep].
  - rewrite snd_public. unfold fillPub. destruct (oPubSet o); [repeat split|]. destruct (b64dec (oPubkey o)); [|repeat split]. destruct (beq (oFunc o) (str "ECDHE25519")); [|destruct (beq (oFunc o) (str "ED25519"))]; repeat split.
  - unfold oSetPrivate. destruct (b64dec s) as [k|]; [|repeat split]. unfold setPrivate. destruct (beq (oFunc o) (str "ECDHE25519")); [|destruct (beq (oFunc o) (str "ED25519"))].
    + unfold dhSetPriv. destruct (lenN k =? 32); repeat split.
    + unfold edSetPriv. destruct (lenN k =? 64); repeat split.
    + repeat split.
Qed.
Lemma run_noInit ops : Forall noInit ops -> forall o, oFunc (krun ops o) = oFunc o /\ oPubkey (krun ops o) = oPubkey o.
Proof.
  induction 1 as [|x ops S F IH]; intros o; [split; reflexivity|]. cbn. fold (krun ops (kstep C o x)). destruct (step_noInit o x S) as (A & B & _). destruct (IH (kstep C o x)) as [E1 E2]. split; congruence.
Qed.
Theorem C204_generated : forall f h p pre post z, Forall sound pre -> Forall noInit post -> wfb z ->
  (lenN z = 32 -> fst (publicKey32 (krun (pre ++ KInitDH (Some z) :: post) (loadedObj f h p))) = Ok (Some (dhpub C z))) /\
  (lenN z = 64 -> fst (publicKey32 (krun (pre ++ KInitSig (Some z) :: post) (loadedObj f h p))) = Ok (Some (edpub C z))).
Proof.
  intros f h p pre post z S NI W. assert (SP : Forall sound post) by (eapply Forall_impl; [|exact NI]; intros x X; apply (step_noInit (loadedObj f h p) x X)).
  assert (SPL : forall x, krun (pre ++ x :: post) (loadedObj f h p) = krun post (kstep C (krun pre (loadedObj f h p)) x)) by (intros x; unfold krun; rewrite fold_left_app; reflexivity).
  split; intros L; (apply C204_public; [apply Forall_app; split; [exact S|constructor; [exists z; auto|exact SP]]| |]); rewrite SPL; match goal with |- context [kstep C ?o ?x] => destruct (run_noInit post NI (kstep C o x)) as [R1 R2]; try rewrite R1; try rewrite R2; clear R1 R2 end; cbn [kstep oInitDH oInitSig snd oFunc oPubkey].
  - left. reflexivity.
  - split; [apply b64_32, dhpub_wf|apply dhpub_len].
  - right. reflexivity.
  - rewrite (into_exact 32) by apply edpub_len. split; [apply b64_32, edpub_wf|apply edpub_len].
Qed.
(* The private key handed out is the one last generated or given in the right size; a key that is refused, and asking for the
   public key, change nothing.  Without a private key PrivateKey panics. *)
Theorem C204_private : forall f h p ops, Forall sound ops ->
  privateKey (krun ops (loadedObj f h p)) = match snd (history (kindOf f) None ops) with Some k => Ok (b64enc k) | None => Panic end.
Proof.
  intros f h p ops S. pose proof (priv_run ops S (loadedObj f h p) (@None (list N)) eq_refl) as Q. change (oFunc (loadedObj f h p)) with f in Q. set (hh := history (kindOf f) None ops) in *. destruct hh as [sg key]. cbv beta iota in Q. destruct Q as [_ P]. cbn [snd].
  unfold privateKey. destruct key as [k|]; [|unfold privOk in P; rewrite P; reflexivity]. destruct P as [-> P]. cbn [negb].
  destruct P as [(KD & q & E & Q)|(KS & L & q & E & Q)].
  - rewrite KD, beq_refl, E, Q. reflexivity.
  - destruct (kind_beq (oFunc (krun ops (loadedObj f h p)))) as [(A & _ & X)|[(A & B & _ & _)|(_ & _ & _ & _ & X)]]; [destruct (not_both _ X KS)| |contradiction]. rewrite A, B, E, Q. rewrite into_exact by exact L. reflexivity.
Qed.
(* The function without a cache that the models of Encrypt and Decrypt use gives the same keys. *)
Theorem C204_refines : forall f h p suite ops, Forall noInit ops -> let r := fst (publicKey32 (krun ops (loadedObj f h p))) in
  (forall k, pub32 (mkKE suite f h p) = Ok k -> r = Ok (Some k)) /\ (isDH f -> forall k, r = Ok (Some k) -> pub32 (mkKE suite f h p) = Ok k).
Proof.
  intros f h p suite ops NI r. assert (S : Forall sound ops) by (eapply Forall_impl; [|exact NI]; intros x X; apply (step_noInit (loadedObj f h p) x X)).
  destruct (run_noInit ops NI (loadedObj f h p)) as [EF EP]. cbn [loadedObj oFunc oPubkey] in EF, EP. split.
  - intros k H. unfold pub32 in H. cbn [kePub keFunc] in H. destruct (b64dec p) as [d|] eqn:D; [|discriminate H].
    destruct (beq f fECDHE || beq f fED25519) eqn:B; [|discriminate H]. destruct (lenN d =? 32) eqn:L; [|discriminate H]. apply N.eqb_eq in L. assert (d = k) as -> by congruence.
    apply C204_public; [exact S| |rewrite EP; split; assumption]. rewrite EF. apply Bool.orb_true_iff in B as [B|B]; apply beq_spec in B; [left|right]; exact B.
  - intros KD k H. apply C204_dh_partial in H; [|exact S|rewrite EF; exact KD]. rewrite EP in H. destruct H as [D L]. unfold pub32. cbn [kePub keFunc]. rewrite D, KD.
    change (beq (str "ECDHE25519") fECDHE) with true. cbn [orb]. rewrite L. reflexivity.
Qed.
End Props.

(* The other direction fails for signature keys: if PUBKEY has another length, 32 zero bytes are handed out. *)
Theorem C204_refuted : exists f h p k, isSig f /\ fst (publicKey32 (loadedObj f h p)) = Ok (Some k) /\ ~ names p k.
Proof.
  exists (str "ED25519"), [], (b64enc [1; 2; 3]), (repeat 0 32). split; [reflexivity|]. split; [vm_compute; reflexivity|]. intros [H _]. vm_compute in H. discriminate H.
Qed.
(* And if generating a key fails, an entry that had a key panics. *)
Theorem C204_failed_refuted : exists ops k, let o := krun toy ops (loadedObj [] [] []) in isDH (oFunc o) /\ names (oPubkey o) k /\ fst (publicKey32 o) = Panic.
Proof. exists [KInitDH (Some (repeat 5 32)); KInitDH None], (dhpub toy (repeat 5 32)). split; [reflexivity|]. split; [split; vm_compute; reflexivity|vm_compute; reflexivity]. Qed.

Example C204_ex : let ops := [KPublic; KSetPriv (b64enc [9]); KSetPriv (b64enc (repeat 7 32)); KPublic; KSetPriv (str "?")] in
  Forall sound ops /\ Forall noInit ops /\ names (b64enc (repeat 4 32)) (repeat 4 32) /\ isDH (oFunc (krun toy ops (loadedObj (str "ECDHE25519") [] (b64enc (repeat 4 32))))) /\
  snd (history (kindOf (str "ECDHE25519")) None ops) = Some (repeat 7 32) /\ sound (KInitSig (Some (repeat 5 64))).
Proof.
  split; [repeat constructor|]. split; [repeat constructor|]. split; [split; vm_compute; reflexivity|]. split; [vm_compute; reflexivity|]. split; [vm_compute; reflexivity|].
  exists (repeat 5 64). split; [reflexivity|]. split; [reflexivity|]. apply wfbb_spec. reflexivity.
Qed.

Print Assumptions C204_public.
Print Assumptions C204_dh_partial.
Print Assumptions C204_generated.
Print Assumptions C204_private.
Print Assumptions C204_refines.
Print Assumptions C204_refuted.
Print Assumptions C204_failed_refuted.
