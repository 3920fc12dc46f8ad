(* C201: the identities a message is tried to be decrypted for. *)
From Verif Require Import Base Base64Model Base64Proofs CodecModel CodecProofs IdentityModel IdentityProofs JsonModel JsonProofs CryptoModel Maps StoreModel KeysModel KeysProofs HeaderModel HeaderProofs SqlModel SqlProofs KeyDBModel KeyDBProofs HashChainModel HashChainProofs ProtoProofs UidModel UidProofs PropsUid RecipModel.
Local Open Scope N_scope.

(* SELECT DISTINCT *)
Lemma dedup_In l x : In x (dedup l) <-> In x l.
Proof.
  induction l as [|y l IH]; [reflexivity|]. cbn [dedup In]. rewrite filter_In, IH. split.
  - intros [E|[I _]]; [left; exact E|right; exact I].
  - intros [E|I]; [left; exact E|]. destruct (beq x y) eqn:B; [left; symmetry; apply beq_spec, B|right]. split; [exact I|reflexivity].
Qed.
Lemma dedup_NoDup l : NoDup (dedup l).
Proof.
  induction l as [|y l IH]; [constructor|]. cbn [dedup]. constructor; [|apply NoDup_filter, IH].
  rewrite filter_In. intros [_ B]. rewrite beq_refl in B. discriminate B.
Qed.

(* [i] is an identity of [id] which decrypts what is encrypted to its UID message: the private keys belong to the public keys in it *)
Definition holdsKeys (C : Crypto) (id : bytes) (i : ident) : Prop := uIdentity (idUid i) = id /\
  (exists sp, idSigPriv i = Some sp /\ b64dec (kePub (uSigKey (idUid i))) = Some (edpub C sp)) /\
  exists ep k, idEncPriv i = Some ep /\ uPubKeys (idUid i) = [k] /\ b64dec (kePub k) = Some (dhpub C ep).
(* the own nyms: those with a row in the table of private UID messages *)
Definition isOwn (d : iddb) (id : bytes) : Prop := exists r, In r (dOwn d) /\ owIdentity (snd r) = id.

Lemma recipLoop_ok C d ids : (forall id, In id ids -> exists i rep, getOwn C id true d = Ok (i, rep) /\ holdsKeys C id i) ->
  exists l, recipLoop C ids d = Ok l /\ map (fun i => uIdentity (idUid i)) l = ids /\
    forall i, In i l -> (exists rep, getOwn C (uIdentity (idUid i)) true d = Ok (i, rep)) /\ holdsKeys C (uIdentity (idUid i)) i.
Proof.
  induction ids as [|id ids IH]; intros H; cbn [recipLoop]; [exists []; split; [reflexivity|split; [reflexivity|intros i []]]|].
  destruct (H id (or_introl eq_refl)) as (i & rep & G & K). destruct IH as (l & E & M & P); [intros x I; apply H; right; exact I|].
  rewrite G. cbn [rbind]. rewrite E. cbn [rbind]. exists (i :: l). split; [reflexivity|]. pose proof (proj1 K) as ID. split; [cbn [map]; rewrite ID, M; reflexivity|].
  intros j [<-|J]; [|apply P, J]. rewrite ID. split; [exists rep; exact G|exact K].
Qed.

(* After any commands the identities are found: every own nym occurs, nothing else, each once, with the message that counts and with
   the private keys of the public keys in it. *)
Theorem C201 : forall U C ops, let d := irun U C ops emptyIddb in Forall iopWf ops ->
  exists l, getRecipientIdentities C d = Ok l /\ NoDup (map (fun i => uIdentity (idUid i)) l) /\
    (forall id, isOwn d id <-> In id (map (fun i => uIdentity (idUid i)) l)) /\
    forall i, In i l -> (exists rep, getOwn C (uIdentity (idUid i)) true d = Ok (i, rep)) /\ holdsKeys C (uIdentity (idUid i)) i.
Proof.
  intros U C ops d F. destruct (recipLoop_ok C d (ownIdentities d)) as (l & E & M & P).
  - intros id I. unfold ownIdentities in I. rewrite dedup_In in I. apply in_map_iff in I as (r & Er & Ir).
    destruct (C108_own_usable U C ops id F) as [H|(i & rep & sp & ep & G & _ & ID & _ & _ & S1 & S2 & E1 & (k & K1 & K2) & _)]; [elim (H r Ir Er)|].
    exists i, rep. split; [exact G|]. split; [exact ID|]. split; [exists sp; split; assumption|]. exists ep, k. split; [exact E1|]. split; assumption.
  - exists l. split; [exact E|]. split; [rewrite M; apply dedup_NoDup|]. split; [|exact P]. intros id. rewrite M. unfold ownIdentities. rewrite dedup_In, in_map_iff.
    split; intros (r & A & B); exists r; split; assumption.
Qed.

(* The command gives the nym a new identity or removes it: generate, delete *)
Definition replaces (U : Unicode) (id : bytes) (o : iop) : Prop :=
  match o with IGenerate p _ _ _ _ | IDelete p => imap U p = Ok id | _ => False end.

Lemma kept_step U C d o id i rep : ownOk U C d -> iopWf o -> ~ replaces U id o -> getOwn C id true d = Ok (i, rep) ->
  exists i' rep', getOwn C id true (istep U C d o) = Ok (i', rep') /\ idEncPriv i' = idEncPriv i /\ uPubKeys (idUid i') = uPubKeys (idUid i).
Proof.
  intros K W NR G.
  assert (D : opNym U o = Ok id \/ opNym U o <> Ok id).
  { destruct (opNym U o) as [x|e|]; [|right; discriminate|right; discriminate]. destruct (beq x id) eqn:B; [left; apply beq_spec in B; subst x; reflexivity|right].
    intros E. apply beq_neq in B. congruence. }
  destruct D as [E|E]; [|exists i, rep; rewrite (getOwn_frame U C d o id true K W E); split; [exact G|split; reflexivity]].
  destruct o as [p le yl sp ep|p srv ks|p sp|p|p mix nym now now' dp iv srv ks|u srv]; cbn [istep opNym replaces] in *; try (elim NR; exact E); try discriminate E.
  - destruct (getOwn_cases U C id true d K) as [[X _]|(nn & rr & j & sp0 & ep0 & rp & T & II & RO & ID & X & _)]; [congruence|].
    pose proof RO as (GI & _). rewrite (readRow_true U C j sp0 ep0 rp GI) in X. rewrite X in G. apply (f_equal (fun r => match r with Ok (a, _) => Some a | _ => None end)) in G. injection G as ->.
    destruct (ceRegister_cases U C p srv ks d) as [[-> _]|(id' & dmn & i' & r & jsn & M & G' & _ & J & -> & _)]; [exists i, rp; split; [exact X|split; reflexivity]|].
    apply newJSONReply_wf in J. unfold addOwnReply.
    set (q := fun (_ : N) r0 => beq (owMsg r0) (uidJSON (idUid i'))). set (g := fun x => mkOwn (owIdentity x) (owCount x) (owMsg x) (owSig x) (owEnc x) (replyJSON r)).
    destruct RO as (A1 & A2 & A3 & A4 & A5 & A6 & A7 & A8 & A9).
    assert (Z : exists r1 rep1, tmax (fun r => beq (owIdentity r) id) owCount (tupd q g (dOwn d)) = Some (nn, r1) /\ rowOf U C r1 i sp0 ep0 rep1).
    { rewrite (tmax_tupd _ _ q g) by reflexivity. rewrite T. cbn [fst snd]. destruct (q nn rr).
      - exists (g rr), (Some r). split; [reflexivity|]. unfold rowOf, g. cbn [owIdentity owCount owMsg owSig owEnc owReply].
        repeat (split; [assumption|]). split; [reflexivity|]. intros z Q; injection Q as <-. exact J.
      - exists rr, rp. split; [reflexivity|]. unfold rowOf. repeat (split; [assumption|]). assumption. }
    destruct Z as (r1 & rep1 & T1 & R1). exists i, rep1. split; [|split; reflexivity].
    rewrite (getOwn_row U C id true _ nn r1 i sp0 ep0 rep1); [rewrite (readRow_true U C i sp0 ep0 rep1 GI); reflexivity|exact T1|exact R1].
  - destruct (ceGenupdate U C p sp d) as [d'| |] eqn:X; cbn [orElse]; try (exists i, rep; split; [exact G|split; reflexivity]).
    apply ceGenupdate_ok in X as (id' & i1 & r & n & M & G' & Up & A). destruct W as (L & W). assert (id' = id) by congruence. subst id'.
    rewrite G' in G. apply (f_equal (fun r => match r with Ok (a, _) => Some a | _ => None end)) in G. injection G as ->.
    destruct (getOwn_cases U C id true d K) as [[X _]|(nn & rr & j & sp0 & ep0 & rp & T & II & RO & ID & X & MX)]; [congruence|].
    pose proof RO as (GI & _ & CN & _ & _ & _ & LT & _). rewrite (readRow_true U C j sp0 ep0 rp GI) in X. rewrite X in G'.
    apply (f_equal (fun r => match r with Ok (a, _) => Some a | _ => None end)) in G'. injection G' as ->.
    destruct (update_ok U C i sp0 ep0 sp n GI L W Up) as (GN & _ & CC & IN). destruct (addOwn_good U C n sp ep0 d d' GN A) as (LN & ->).
    assert (Q : uMsgCount (idUid n) = uMsgCount (idUid i) + 1) by (rewrite CC; apply wrap64_id; lia).
    exists n, None. split; [|split; [rewrite (gi_ep _ _ _ _ _ GN), (gi_ep _ _ _ _ _ GI); reflexivity|rewrite (gi_pk _ _ _ _ _ GN), (gi_pk _ _ _ _ _ GI); reflexivity]].
    rewrite (getOwn_row U C id true _ (nextId (dOwn d)) (mkOwn (uIdentity (idUid n)) (uMsgCount (idUid n)) (uidJSON (idUid n)) (b64enc sp) (b64enc ep0) []) n sp ep0 None).
    + f_equal. apply (readRow_true U C n sp ep0 None GN).
    + cbn [dOwn]. apply tmax_tins_new; [apply beq_spec; cbn [owIdentity]; congruence|]. intros s Is Ps. apply beq_spec in Ps. specialize (MX s Is Ps). cbn [owCount]. lia.
    + apply rowOf_new; assumption.
  - destruct (ceAddKeyInit U C p mix nym now now' dp iv srv ks d) as [d'| |] eqn:X; cbn [orElse]; try (exists i, rep; split; [exact G|split; reflexivity]).
    apply ceAddKeyInit_ok in X as (id' & dmn & i1 & r & ki & h & priv & sig & _ & _ & _ & ->). exists i, rep. split; [exact G|split; reflexivity].
Qed.
Lemma kept_run U C id more : forall d i rep, ownOk U C d -> Forall iopWf more -> Forall (fun o => ~ replaces U id o) more -> getOwn C id true d = Ok (i, rep) ->
  exists i' rep', getOwn C id true (irun U C more d) = Ok (i', rep') /\ idEncPriv i' = idEncPriv i /\ uPubKeys (idUid i') = uPubKeys (idUid i).
Proof.
  induction more as [|o more IH]; intros d i rep K F N G; [exists i, rep; split; [exact G|split; reflexivity]|].
  apply Forall_cons_iff in F as (W & F). apply Forall_cons_iff in N as (N1 & N). cbv beta in N1.
  destruct (kept_step U C d o id i rep K W N1 G) as (i1 & rep1 & G1 & A1 & B1).
  destruct (IH _ _ _ (ownOk_step U C d o K W) F N G1) as (i2 & rep2 & G2 & A2 & B2). exists i2, rep2. split; [exact G2|]. split; congruence.
Qed.
(* Only the most current message of each nym is tried (the comment at line 19), and this loses nothing: the encryption key which an
   earlier message of the nym had is still the one in the list after any further commands, until the nym is generated again or deleted. *)
Theorem C201_kept : forall U C ops more id i rep, let d := irun U C ops emptyIddb in Forall iopWf ops -> Forall iopWf more ->
  getOwn C id true d = Ok (i, rep) -> Forall (fun o => ~ replaces U id o) more ->
  exists l j, getRecipientIdentities C (irun U C (ops ++ more) emptyIddb) = Ok l /\ In j l /\ uIdentity (idUid j) = id /\
    idEncPriv j = idEncPriv i /\ uPubKeys (idUid j) = uPubKeys (idUid i).
Proof.
  intros U C ops more id i rep d F Fm G N.
  destruct (kept_run U C id more d i rep (ownOk_run U C ops emptyIddb (ownOk_empty U C) F) Fm N G) as (i' & rep' & G' & A & B).
  assert (R : irun U C (ops ++ more) emptyIddb = irun U C more d) by (unfold irun, d; apply fold_left_app).
  assert (F2 : Forall iopWf (ops ++ more)) by (apply Forall_app; split; assumption).
  destruct (C201 U C (ops ++ more) F2) as (l & E & _ & I & P). rewrite R in *.
  assert (O : isOwn (irun U C more d) id).
  { rewrite <- R in *.
    destruct (getOwn_cases U C id true (irun U C (ops ++ more) emptyIddb) (ownOk_run U C _ emptyIddb (ownOk_empty U C) F2)) as [[X _]|(nn & rr & j & sp0 & ep0 & rp & T & II & RO & ID & _)]; [congruence|].
    exists (nn, rr). split; [exact II|]. cbn [snd]. destruct RO as (_ & -> & _). exact ID. }
  apply I in O. apply in_map_iff in O as (j & ID & J). exists l, j. split; [exact E|]. split; [exact J|]. split; [exact ID|].
  destruct (P j J) as ((rp & Gj) & _). rewrite ID in Gj. rewrite Gj in G'. apply (f_equal (fun r => match r with Ok (a, _) => Some a | _ => None end)) in G'. injection G' as ->. split; assumption.
Qed.

(* Two nyms, then an update of the first: both are tried, the first with its former encryption key *)
Definition xMore : list iop := [IUpdate xAnn xS2; IUpdate xBob xS1].
Example C201_ex : Forall iopWf xOps /\ Forall iopWf xMore /\ is_ok (getOwn toy xAnn true (irun goUnicode toy xOps emptyIddb)) = true /\
  Forall (fun o => ~ replaces goUnicode xAnn o) xMore /\
  match getRecipientIdentities toy (irun goUnicode toy (xOps ++ xMore) emptyIddb) with
  | Ok l => map (fun i => (uIdentity (idUid i), idSigPriv i, idEncPriv i)) l = [(xAnn, Some xS2, Some xE1); (xBob, Some xS1, Some xE2)]
  | _ => False end.
Proof.
  split; [exact xOps_wf|]. split; [repeat (apply Forall_cons; [cbn [iopWf]; split; [reflexivity|apply wfbb_spec; reflexivity]|]); apply Forall_nil|].
  split; [vm_compute; reflexivity|]. split; [repeat (apply Forall_cons; [intros []|]); apply Forall_nil|]. vm_compute. reflexivity.
Qed.

Print Assumptions C201.
Print Assumptions C201_kept.
