(* Lemmas about UID messages, KeyInit messages and the tables that hold them. *)
From Verif Require Import Base Base64Model Base64Proofs CodecModel CodecProofs IdentityModel IdentityProofs JsonModel JsonProofs CryptoModel Maps StoreModel KeysModel KeysProofs HeaderModel HeaderProofs SqlModel SqlProofs KeyDBModel KeyDBProofs HashChainModel HashChainProofs ProtoProofs UidModel.
Local Open Scope N_scope.

(* ------------------------------------------------------------------ *)
(* signatures *)
Lemma checkSig_ok C k m e : checkSig C (b64enc (edpub C k)) m (b64enc (edsign C k m)) e = Ok tt.
Proof.
  unfold checkSig. rewrite b64dec_enc by apply edsign_wf. rewrite b64dec_enc by apply edpub_wf. rewrite edpub_len.
  change (32 =? 32) with true. cbn [negb]. rewrite edverify_sign. reflexivity.
Qed.
Lemma checkSigP_ok C k m e : checkSigP C (b64enc (edpub C k)) m (b64enc (edsign C k m)) e = Ok tt.
Proof.
  unfold checkSigP. rewrite b64dec_enc by apply edsign_wf. rewrite b64dec_enc by apply edpub_wf. rewrite edpub_len.
  change (32 =? 32) with true. cbn [negb]. rewrite edverify_sign. reflexivity.
Qed.
Lemma verifySelfSig_check C u : verifySelfSig C u = checkSig C (kePub (uSigKey u)) (contentJSON u) (uSelfSig u) "uid: self-signature invalid"%string.
Proof. reflexivity. Qed.
Lemma content_self s u : contentJSON (setSelfSig s u) = contentJSON u.
Proof. reflexivity. Qed.
Lemma content_user s u : contentJSON (setUserSig s u) = contentJSON u.
Proof. reflexivity. Qed.

(* ------------------------------------------------------------------ *)
(* JSON *)
Lemma dec_uint_bound b o u : dec_uint b o = Some u -> u < 2 ^ b.
Proof.
  assert (P : 0 < 2 ^ b) by (apply N.neq_0_lt_0, N.pow_nonzero; discriminate).
  destruct o as [[| | l | | |]|]; cbn [dec_uint]; try discriminate; try (intros H; injection H as <-; exact P).
  destruct (parse_dec l) as [n|]; [|discriminate]. destruct (N.ltb_spec n (2 ^ b)); [|discriminate]. intros H'; injection H' as <-. assumption.
Qed.
Lemma uidOfJson_wf v u : uidOfJson v = Some u -> uidWf u.
Proof.
  unfold uidOfJson. intros H.
  repeat match type of H with
  | match dec_uint 64 ?o with Some _ => _ | None => None end = Some _ => let E := fresh "E" in destruct (dec_uint 64 o) eqn:E; [apply dec_uint_bound in E|discriminate]
  | match ?o with Some _ => _ | None => None end = Some _ => destruct o; [|discriminate]
  end.
  injection H as <-. unfold uidWf. cbn [uMsgCount uNotAfter uNotBefore]. auto.
Qed.
Lemma newJSONUid_wf s u : newJSONUid s = Ok u -> uidWf u.
Proof.
  unfold newJSONUid. destruct (jparse s) as [v|]; [|discriminate]. destruct (uidOfJson v) as [x|] eqn:E; [|discriminate].
  intros H; injection H as <-. exact (uidOfJson_wf _ _ E).
Qed.
Lemma uidJSON_inj u v : uidWf u -> uidWf v -> uidJSON u = uidJSON v -> u = v.
Proof. intros A B E. apply newJSONUid_JSON in A, B. rewrite E in A. congruence. Qed.
Definition replyWf (r : uidReply) : Prop := rpHCPos r < 2 ^ 64.
Lemma replyOfJson_wf v r : replyOfJson v = Some r -> replyWf r.
Proof.
  unfold replyOfJson. intros H.
  repeat match type of H with
  | match dec_uint 64 ?o with Some _ => _ | None => None end = Some _ => let E := fresh "E" in destruct (dec_uint 64 o) eqn:E; [apply dec_uint_bound in E|discriminate]
  | match ?o with Some _ => _ | None => None end = Some _ => destruct o; [|discriminate]
  end.
  injection H as <-. unfold replyWf. cbn [rpHCPos]. assumption.
Qed.
Lemma newJSONReply_wf s r : newJSONReply s = Ok r -> replyWf r.
Proof.
  unfold newJSONReply. destruct (jparse s) as [v|]; [|discriminate]. destruct (replyOfJson v) as [x|] eqn:E; [|discriminate].
  intros H; injection H as <-. exact (replyOfJson_wf _ _ E).
Qed.
Lemma jwf_entry r : jwf (entryToJson r).
Proof. unfold entryToJson. constructor. repeat (apply Forall_cons; [solve [jw]|]). apply Forall_nil. Qed.
Lemma newJSONReply_JSON r : replyWf r -> newJSONReply (replyJSON r) = Ok r.
Proof.
  destruct r as [e h p g]. unfold replyWf. cbn [rpHCPos]. intros W.
  unfold newJSONReply, replyJSON. rewrite jparse_print.
  - unfold replyOfJson, entryToJson. cbn [rpEnc rpHCEntry rpHCPos rpSrvSig dec_obj].
    match goal with |- context [jfield (str "ENTRY") ?l] =>
      change (jfield (str "ENTRY") l) with (Some (JObj [(str "HASHCHAINENTRY", JStr h); (str "HASHCHAINPOS", JN p); (str "UIDMESSAGEENCRYPTED", JStr e)]));
      change (jfield (str "SERVERSIGNATURE") l) with (Some (JStr g)) end.
    cbn [dec_obj].
    match goal with |- context [jfield (str "HASHCHAINENTRY") ?l] =>
      change (jfield (str "HASHCHAINENTRY") l) with (Some (JStr h));
      change (jfield (str "HASHCHAINPOS") l) with (Some (JN p));
      change (jfield (str "UIDMESSAGEENCRYPTED") l) with (Some (JStr e)) end.
    rewrite !dec_str_JStr, dec_uint_JN by (assumption || lia). reflexivity.
  - constructor. apply Forall_cons; [apply jwf_entry|]. apply Forall_cons; [solve [jw]|]. apply Forall_nil.
Qed.
Lemma replyJSON_nonempty r : beq (replyJSON r) [] = false.
Proof. apply beq_neq. unfold replyJSON. rewrite jprint_obj. discriminate. Qed.

Definition kiWf (k : keyInit) : Prop := kcMsgCount (kiCont k) < 2 ^ 64 /\ kcNotAfter (kiCont k) < 2 ^ 64 /\ kcNotBefore (kiCont k) < 2 ^ 64.
Lemma jwf_kc c : jwf (kcToJson c).
Proof. unfold kcToJson. constructor. repeat (apply Forall_cons; [solve [jw]|]). apply Forall_nil. Qed.
Lemma jwf_ki k : jwf (kiToJson k).
Proof. unfold kiToJson. constructor. apply Forall_cons; [apply jwf_kc|]. apply Forall_cons; [solve [jw]|]. apply Forall_nil. Qed.
Lemma jwf_sa s : jwf (saToJson s).
Proof. unfold saToJson. constructor. repeat (apply Forall_cons; [solve [jw]|]). apply Forall_nil. Qed.
Lemma newJSONKeyInit_JSON k : kiWf k -> newJSONKeyInit (kiJSON k) = Ok k.
Proof.
  destruct k as [[ver cnt na nb fb sk ru an ah] sg]. unfold kiWf. cbn [kiCont kcMsgCount kcNotAfter kcNotBefore]. intros (W1 & W2 & W3).
  unfold newJSONKeyInit, kiJSON. rewrite jparse_print by apply jwf_ki.
  unfold kiOfJson, kiToJson. cbn [kiCont kiSig dec_obj].
  match goal with |- context [jfield (str "Contents") ?l] =>
    change (jfield (str "Contents") l) with (Some (kcToJson (mkKC ver cnt na nb fb sk ru an ah)));
    change (jfield (str "SIGNATURE") l) with (Some (JStr sg)) end.
  unfold kcToJson. cbn [dec_obj kcVersion kcMsgCount kcNotAfter kcNotBefore kcFallback kcSigKeyHash kcRepo kcAnchor kcAnchorHash].
  match goal with |- context [jfield (str "FALLBACK") ?l] =>
    change (jfield (str "FALLBACK") l) with (Some (JBool fb));
    change (jfield (str "MSGCOUNT") l) with (Some (JN cnt));
    change (jfield (str "NOTAFTER") l) with (Some (JN na));
    change (jfield (str "NOTBEFORE") l) with (Some (JN nb));
    change (jfield (str "REPOURI") l) with (Some (JStr ru));
    change (jfield (str "SESSIONANCHOR") l) with (Some (JStr an));
    change (jfield (str "SESSIONANCHORHASH") l) with (Some (JStr ah));
    change (jfield (str "SIGKEYHASH") l) with (Some (JStr sk));
    change (jfield (str "VERSION") l) with (Some (JStr ver)) end.
  rewrite !dec_str_JStr, !dec_uint_JN by (assumption || lia). reflexivity.
Qed.
Lemma newJSONKeyInit_wf s k : newJSONKeyInit s = Ok k -> kiWf k.
Proof.
  unfold newJSONKeyInit. destruct (jparse s) as [v|]; [|discriminate]. destruct (kiOfJson v) as [x|] eqn:H; [|discriminate].
  intros E; injection E as <-. unfold kiOfJson in H.
  repeat match type of H with
  | match dec_uint 64 ?o with Some _ => _ | None => None end = Some _ => let E := fresh "E" in destruct (dec_uint 64 o) eqn:E; [apply dec_uint_bound in E|discriminate]
  | match ?o with Some _ => _ | None => None end = Some _ => destruct o; [|discriminate]
  end.
  injection H as <-. unfold kiWf. cbn [kiCont kcMsgCount kcNotAfter kcNotBefore]. auto.
Qed.
Lemma newJSONAnchor_JSON s : newJSONAnchor (saJSON s) = Ok s.
Proof.
  destruct s as [mix nym ks]. unfold newJSONAnchor, saJSON. rewrite jparse_print by apply jwf_sa.
  unfold saOfJson, saToJson. cbn [saMix saNym saKeys dec_obj].
  match goal with |- context [jfield (str "MIXADDRESS") ?l] =>
    change (jfield (str "MIXADDRESS") l) with (Some (JStr mix));
    change (jfield (str "NYMADDRESS") l) with (Some (JStr nym));
    change (jfield (str "PFKEYS") l) with (Some (jkes ks)) end.
  rewrite !dec_str_JStr, dec_arr_kes. reflexivity.
Qed.
Lemma saJSON_inj s t : saJSON s = saJSON t -> s = t.
Proof. intros E. pose proof (newJSONAnchor_JSON s) as A. rewrite E, newJSONAnchor_JSON in A. congruence. Qed.

(* ------------------------------------------------------------------ *)
(* own identities: a UID message whose keys belong to the private keys set in it *)
Record goodIdent (U : Unicode) (C : Crypto) (i : ident) (sp ep : bytes) : Prop := {
  gi_sp : idSigPriv i = Some sp;
  gi_ep : idEncPriv i = Some ep;
  gi_sk : uSigKey (idUid i) = initSigKey C sp;
  gi_pk : uPubKeys (idUid i) = [initDHKey C ep];
  gi_lsp : lenN sp = 64; gi_wsp : wfb sp; gi_lep : lenN ep = 32; gi_wep : wfb ep;
  gi_self : verifySelfSig C (idUid i) = Ok tt;
  gi_check : check U (idUid i) = Ok tt;
  gi_wf : uidWf (idUid i);
  gi_esc : uEscrowSig (idUid i) = [] }.
Lemma wrap64_lt n : wrap64 n < 2 ^ 64.
Proof. unfold wrap64. apply N.mod_lt. discriminate. Qed.
Lemma wrap64_id n : n < 2 ^ 64 -> wrap64 n = n.
Proof. apply N.mod_small. Qed.
(* Check does not look at the signatures if there is no escrow signature *)
Lemma check_same U u v : uEscrowSig u = [] -> uEscrowSig v = [] -> uVersion u = uVersion v -> uFwdSec u = uFwdSec v -> uMix u = uMix v -> uNym u = uNym v ->
  uIdentity u = uIdentity v -> keSuite (uSigKey u) = keSuite (uSigKey v) -> keFunc (uSigKey u) = keFunc (uSigKey v) -> uLastEntry u = uLastEntry v ->
  uPubKeys u = uPubKeys v -> uEscrow u = uEscrow v -> uRepoURIs u = uRepoURIs v -> uChain u = uChain v -> check U u = check U v.
Proof.
  intros E0 E1 E2 E3 E4 E5 E6 E7 E8 E9 E10 E11 E12 E13. unfold check, checkV1.
  rewrite E0, E1, E2, E3, E4, E5, E6, E7, E8, E9, E10, E11, E12, E13. reflexivity.
Qed.
Lemma update_good U C i sp ep sp' : goodIdent U C i sp ep -> lenN sp' = 64 -> wfb sp' ->
  exists n, update C i sp' = Ok n /\ goodIdent U C n sp' ep /\ verifyUserSig C (idUid n) (idUid i) = Ok tt /\
    uMsgCount (idUid n) = wrap64 (uMsgCount (idUid i) + 1) /\ uIdentity (idUid n) = uIdentity (idUid i).
Proof.
  intros G L W. unfold update. unfold pubKey. rewrite (gi_pk _ _ _ _ _ G). cbn [rbind]. unfold priv32.
  rewrite (gi_ep _ _ _ _ _ G). unfold initDHKey at 1. cbn [keFunc]. rewrite beq_refl. cbn [rbind]. rewrite (gi_lep _ _ _ _ _ G).
  change (32 =? 32) with true. cbn [negb]. rewrite (gi_sp _ _ _ _ _ G). cbn [signWith rbind].
  eexists. split; [reflexivity|]. split; [|split; [|split; reflexivity]].
  - constructor; cbn [idUid idSigPriv idEncPriv setUserSig setSelfSig uSigKey uPubKeys uEscrowSig]; try reflexivity; try assumption;
      try (apply (gi_pk _ _ _ _ _ G) || apply (gi_lep _ _ _ _ _ G) || apply (gi_wep _ _ _ _ _ G) || apply (gi_esc _ _ _ _ _ G)).
    + rewrite verifySelfSig_check. unfold setUserSig, setSelfSig. cbn [uSelfSig uSigKey initSigKey kePub].
      match goal with |- checkSig _ _ ?m (b64enc (edsign _ _ ?m')) _ = _ => change m with m' end.
      apply checkSig_ok.
    + rewrite <- (gi_check _ _ _ _ _ G). apply check_same; cbn [setUserSig setSelfSig uEscrowSig uVersion uFwdSec uMix uNym uIdentity uSigKey uLastEntry uPubKeys uEscrow uRepoURIs uChain];
        try reflexivity; try apply (gi_esc _ _ _ _ _ G); try (symmetry; apply (gi_pk _ _ _ _ _ G)); rewrite (gi_sk _ _ _ _ _ G); reflexivity.
    + destruct (gi_wf _ _ _ _ _ G) as (A & B & D). unfold uidWf. cbn [setUserSig setSelfSig uMsgCount uNotAfter uNotBefore].
      split; [apply wrap64_lt|]. split; assumption.
  - unfold verifyUserSig. cbn [idUid setUserSig setSelfSig uMsgCount uUserSig]. rewrite N.eqb_refl. cbn [negb].
    rewrite (gi_sk _ _ _ _ _ G). cbn [initSigKey kePub].
    match goal with |- checkSig _ _ ?m (b64enc (edsign _ _ ?m')) _ = _ => change m with m' end.
    apply checkSig_ok.
Qed.
Lemma update_ok U C i sp ep sp' n : goodIdent U C i sp ep -> lenN sp' = 64 -> wfb sp' -> update C i sp' = Ok n ->
  goodIdent U C n sp' ep /\ verifyUserSig C (idUid n) (idUid i) = Ok tt /\
    uMsgCount (idUid n) = wrap64 (uMsgCount (idUid i) + 1) /\ uIdentity (idUid n) = uIdentity (idUid i).
Proof. intros G L W E. destruct (update_good U C i sp ep sp' G L W) as (m & E' & R). rewrite E in E'. injection E' as <-. exact R. Qed.

(* Create *)
Lemma isMapped_split U id : isMapped U id = true -> exists lp dmn, split id = Ok (lp, dmn).
Proof.
  unfold isMapped. destruct (imap U id) as [m| |] eqn:E; try discriminate. intros _.
  unfold imap in E. destruct (_ <? _); [discriminate|]. apply rbind_ok in E as ([lp dmn] & S & _). exists lp, dmn. exact S.
Qed.
Lemma create_ok U C id esc mix nym pfs le yl sp ep xp i : create U C id esc mix nym pfs le yl sp ep xp = Ok i ->
  exists lp dmn fs, isMapped U id = true /\ split id = Ok (lp, dmn) /\ (beq lp keyserver = true \/ is_ok (splitEntry le) = true) /\ pfsString pfs = Ok fs /\
  let u := mkUid ProtocolVersion 0 yl 0 (if pfs =? 2 then mix else []) (if pfs =? 2 then nym else []) id
             (initSigKey C sp) [initDHKey C ep] (if esc then Some (initSigKey C xp) else None) le [dmn] fs [DefaultCiphersuite] None [] [] [] [] in
  i = mkIdent (setSelfSig (b64enc (edsign C sp (contentJSON u))) u) (Some ep) (Some sp).
Proof.
  unfold create. destruct (isMapped U id) eqn:M; [|discriminate]. cbn [negb]. destruct (split id) as [[lp dmn]| |] eqn:S; try discriminate.
  intros H. apply rbind_ok in H as (? & L & H). apply rbind_ok in H as (fs & P & H). exists lp, dmn, fs.
  split; [reflexivity|]. split; [reflexivity|]. split.
  { destruct (beq lp keyserver); [left; reflexivity|right]. apply rbind_ok in L as (e & -> & _). reflexivity. }
  split; [exact P|]. cbv zeta. injection H as <-. reflexivity.
Qed.

Lemma create_good U C id mix nym le yl sp ep xp i : create U C id false mix nym 1 le yl sp ep xp = Ok i ->
  yl < 2 ^ 64 -> lenN sp = 64 -> wfb sp -> lenN ep = 32 -> wfb ep -> goodIdent U C i sp ep /\ uIdentity (idUid i) = id /\ uMsgCount (idUid i) = 0.
Proof.
  intros H Y L1 W1 L2 W2. apply create_ok in H as (lp & dmn & fs & M & S & LE & P & E). cbv zeta in E. injection P as <-.
  change (1 =? 2) with false in E. cbn iota in E. rewrite E. clear E i. split; [|split; reflexivity]. constructor; try reflexivity; try assumption.
  - rewrite verifySelfSig_check. cbn [idUid]. rewrite content_self. unfold setSelfSig. cbn [uSelfSig uSigKey initSigKey kePub]. apply checkSig_ok.
  - unfold check. cbn [idUid setSelfSig uVersion uFwdSec uMix uNym uIdentity uSigKey uLastEntry uEscrowSig uUserSig initSigKey keSuite keFunc].
    rewrite !beq_refl, M, S. cbn [negb andb]. rewrite andb_false_r.
    replace (if beq lp keyserver then Ok tt else (do _ <- splitEntry le; Ok tt)) with (Ok tt : res unit)
      by (destruct LE as [->|LE]; [reflexivity|destruct (beq lp keyserver); [reflexivity|destruct (splitEntry le); [reflexivity|discriminate|discriminate]]]).
    cbn [rbind]. unfold checkV1. cbn [setSelfSig uFwdSec uPubKeys uEscrow uIdentity uRepoURIs uChain initDHKey keSuite keFunc]. rewrite S, !beq_refl. reflexivity.
  - unfold uidWf. cbn [idUid setSelfSig uMsgCount uNotAfter uNotBefore]. repeat split; lia.
Qed.

(* ------------------------------------------------------------------ *)
(* the table of own identities *)
Definition rowOf (U : Unicode) (C : Crypto) (r : ownRow) (i : ident) (sp ep : bytes) (rep : option uidReply) : Prop :=
  goodIdent U C i sp ep /\ owIdentity r = uIdentity (idUid i) /\ owCount r = uMsgCount (idUid i) /\ owMsg r = uidJSON (idUid i) /\
  owSig r = b64enc sp /\ owEnc r = b64enc ep /\ owCount r < 2 ^ 63 /\
  owReply r = match rep with Some p => replyJSON p | None => [] end /\ (forall p, rep = Some p -> replyWf p).
Definition ownOk (U : Unicode) (C : Crypto) (d : iddb) : Prop :=
  idsOk (dOwn d) /\ idsOk (dPki d) /\ idsOk (dFki d) /\ (forall r, In r (dOwn d) -> exists i sp ep rep, rowOf U C (snd r) i sp ep rep).
(* reading a row *)
Definition readRow (i : ident) (b : bool) (rep : option uidReply) : ident * option uidReply := (mkIdent (idUid i) (if b then idEncPriv i else None) (if b then idSigPriv i else None), rep).
Lemma getOwn_row U C id b d n r i sp ep rep : tmax (fun r => beq (owIdentity r) id) owCount (dOwn d) = Some (n, r) -> rowOf U C r i sp ep rep ->
  getOwn C id b d = Ok (readRow i b rep).
Proof.
  intros T (G & _ & _ & EM & ES & EE & _ & ER & WR). unfold getOwn. rewrite T, EM, (newJSONUid_JSON _ (gi_wf _ _ _ _ _ G)). cbn [rbind].
  rewrite (gi_self _ _ _ _ _ G). cbn [rbind]. rewrite ES, EE. unfold readRow.
  assert (R : (if beq (owReply r) [] then Ok None else (do p <- newJSONReply (owReply r); Ok (Some p))) = Ok rep).
  { rewrite ER. destruct rep as [p|]; [|reflexivity]. rewrite replyJSON_nonempty, (newJSONReply_JSON p (WR p eq_refl)). reflexivity. }
  destruct b.
  - unfold b64res. rewrite (b64dec_enc _ (gi_wsp _ _ _ _ _ G)), (b64dec_enc _ (gi_wep _ _ _ _ _ G)). cbn [rbind].
    unfold setPriv64, setPriv32, pubKey. rewrite (gi_sk _ _ _ _ _ G), (gi_pk _ _ _ _ _ G), (gi_lsp _ _ _ _ _ G), (gi_lep _ _ _ _ _ G).
    change (beq (keFunc (initSigKey C sp)) fECDHE) with false. change (beq (keFunc (initSigKey C sp)) fED25519) with true. cbn iota.
    change (64 =? 64) with true. cbn [rbind]. change (beq (keFunc (initDHKey C ep)) fECDHE) with true. change (32 =? 32) with true. cbn iota. cbn [rbind].
    rewrite R. cbn [rbind]. rewrite (gi_sp _ _ _ _ _ G), (gi_ep _ _ _ _ _ G). reflexivity.
  - cbn [rbind]. rewrite R. reflexivity.
Qed.
Lemma getOwn_cases U C id b d : ownOk U C d ->
  (getOwn C id b d = Err "keydb: no privkey for nym found"%string /\ forall r, In r (dOwn d) -> owIdentity (snd r) <> id) \/
  (exists n r i sp ep rep, tmax (fun r => beq (owIdentity r) id) owCount (dOwn d) = Some (n, r) /\ In (n, r) (dOwn d) /\ rowOf U C r i sp ep rep /\
    uIdentity (idUid i) = id /\ getOwn C id b d = Ok (readRow i b rep) /\ (forall s, In s (dOwn d) -> owIdentity (snd s) = id -> owCount (snd s) <= owCount r)).
Proof.
  intros (_ & _ & _ & H). destruct (tmax (fun r => beq (owIdentity r) id) owCount (dOwn d)) as [[n r]|] eqn:T.
  - right. pose proof (tmax_some _ _ _ _ T) as (I & P & M). cbn [snd] in *. apply beq_spec in P. destruct (H _ I) as (i & sp & ep & rep & R). cbn [snd] in R.
    exists n, r, i, sp, ep, rep. split; [reflexivity|]. split; [exact I|]. split; [exact R|]. split; [destruct R as (_ & <- & _); exact P|].
    split; [exact (getOwn_row U C id b d n r i sp ep rep T R)|]. intros s Is Es. apply M; [exact Is|apply beq_spec; exact Es].
  - left. unfold getOwn. rewrite T. split; [reflexivity|]. intros r I E. pose proof (tmax_none _ _ _ T r I) as F. cbn beta in F. rewrite E, beq_refl in F. discriminate.
Qed.
Lemma mapPlus_imap U x id dmn : mapPlus U x = Ok (id, dmn) -> imap U x = Ok id.
Proof.
  unfold mapPlus, imap. destruct (_ <? _); [discriminate|]. intros H. apply rbind_ok in H as ([lp dm] & -> & H). cbn [rbind].
  apply rbind_ok in H as (m & -> & H). cbn [rbind]. injection H as <- <-. reflexivity.
Qed.
Lemma addOwn_good U C i sp ep d d' : goodIdent U C i sp ep -> addOwn i d = Ok d' ->
  uMsgCount (idUid i) < 2 ^ 63 /\ d' = mkIddb (tins (mkOwn (uIdentity (idUid i)) (uMsgCount (idUid i)) (uidJSON (idUid i)) (b64enc sp) (b64enc ep) []) (dOwn d)) (dPki d) (dFki d).
Proof.
  intros G. unfold addOwn. rewrite (gi_sk _ _ _ _ _ G). change (beq (keFunc (initSigKey C sp)) fED25519) with true. cbn iota.
  rewrite (gi_sp _ _ _ _ _ G). cbn [rbind]. unfold pubKey. rewrite (gi_pk _ _ _ _ _ G). cbn [rbind]. unfold priv32. rewrite (gi_ep _ _ _ _ _ G).
  change (beq (keFunc (initDHKey C ep)) fECDHE) with true. cbn iota. cbn [rbind].
  destruct (sqlInt (uMsgCount (idUid i))) eqn:Q; [|discriminate]. cbn [negb]. intros H; injection H as <-. split; [unfold sqlInt in Q; lia|reflexivity].
Qed.
Lemma addOwn_total U C i sp ep d : goodIdent U C i sp ep -> uMsgCount (idUid i) < 2 ^ 63 -> exists d', addOwn i d = Ok d'.
Proof.
  intros G L. unfold addOwn. rewrite (gi_sk _ _ _ _ _ G). change (beq (keFunc (initSigKey C sp)) fED25519) with true. cbn iota.
  rewrite (gi_sp _ _ _ _ _ G). cbn [rbind]. unfold pubKey. rewrite (gi_pk _ _ _ _ _ G). cbn [rbind]. unfold priv32. rewrite (gi_ep _ _ _ _ _ G).
  change (beq (keFunc (initDHKey C ep)) fECDHE) with true. cbn iota. cbn [rbind]. unfold sqlInt.
  replace (uMsgCount (idUid i) <? 2 ^ 63) with true by lia. cbn [negb]. eexists. reflexivity.
Qed.
Lemma rowOf_new U C i sp ep : goodIdent U C i sp ep -> uMsgCount (idUid i) < 2 ^ 63 ->
  rowOf U C (mkOwn (uIdentity (idUid i)) (uMsgCount (idUid i)) (uidJSON (idUid i)) (b64enc sp) (b64enc ep) []) i sp ep None.
Proof. intros G L. unfold rowOf. cbn [owIdentity owCount owMsg owSig owEnc owReply]. repeat split; try assumption; try reflexivity; try apply G. discriminate. Qed.
Lemma ownOk_add U C i sp ep d d' : ownOk U C d -> goodIdent U C i sp ep -> addOwn i d = Ok d' -> ownOk U C d'.
Proof.
  intros (I1 & I2 & I3 & R) G A. destruct (addOwn_good U C i sp ep d d' G A) as (L & ->). unfold ownOk. cbn [dOwn dPki dFki].
  split; [apply idsOk_tins, I1|]. split; [exact I2|]. split; [exact I3|]. intros r Ir. apply In_tins in Ir as [Ir| ->]; [apply R, Ir|]. cbn [snd].
  exists i, sp, ep, None. apply rowOf_new; assumption.
Qed.
(* the three ways in which a command ends *)
Lemma ceGenerate_ok U C p le yl sp ep d d' : ceGenerate U C p le yl sp ep d = Ok d' -> exists id dmn e i,
  mapPlus U p = Ok (id, dmn) /\ le dmn = Ok e /\ create U C id false [] [] 1 e yl sp ep [] = Ok i /\ addOwn i d = Ok d'.
Proof.
  unfold ceGenerate. intros H. apply rbind_ok in H as ([id dmn] & M & H). apply rbind_ok in H as (e & E & H). apply rbind_ok in H as (i & I & H).
  exists id, dmn, e, i. auto.
Qed.
Lemma ceGenupdate_ok U C p sp d d' : ceGenupdate U C p sp d = Ok d' -> exists id i r n,
  imap U p = Ok id /\ getOwn C id true d = Ok (i, r) /\ update C i sp = Ok n /\ addOwn n d = Ok d'.
Proof.
  unfold ceGenupdate. intros H. apply rbind_ok in H as (id & M & H). apply rbind_ok in H as ([i r] & E & H). apply rbind_ok in H as (n & I & H).
  exists id, i, r, n. auto.
Qed.
Lemma ceRegister_cases U C p srv ks d : let R := ceRegister U C p srv ks d in
  (snd R = d /\ fst R <> Ok tt) \/
  (exists id dmn i r jsn, mapPlus U p = Ok (id, dmn) /\ getOwn C id false d = Ok (i, None) /\ srv (idUid i) = Ok (Some jsn) /\ newJSONReply jsn = Ok r /\
     snd R = addOwnReply (idUid i) r d /\ fst R = match ks with [] => Panic | k :: _ => verifySrvSig C r (idUid i) k end).
Proof.
  cbv zeta. unfold ceRegister.
  destruct (mapPlus U p) as [[id dmn]| |]; cbn [rbind]; try (left; split; [reflexivity|discriminate]).
  destruct (getOwn C id false d) as [[i rep]| |] eqn:G; cbn [rbind]; try (left; split; [reflexivity|discriminate]).
  destruct rep as [rp|]; [left; split; [reflexivity|discriminate]|].
  destruct (srv (idUid i)) as [[jsn|]| |] eqn:S; cbn [rbind]; try (left; split; [reflexivity|discriminate]).
  destruct (newJSONReply jsn) as [r| |] eqn:J; cbn [rbind]; try (left; split; [reflexivity|discriminate]).
  right. exists id, dmn, i, r, jsn. repeat split; try assumption; destruct ks; reflexivity.
Qed.
Lemma ceDelete_ok U C p d d' : ceDelete U C p d = Ok d' -> exists id i r, imap U p = Ok id /\ getOwn C id false d = Ok (i, r) /\ d' = delOwn (idUid i) d.
Proof.
  unfold ceDelete. intros H. apply rbind_ok in H as (id & M & H). apply rbind_ok in H as ([i r] & E & H). injection H as <-. exists id, i, r. auto.
Qed.
Lemma ceAddKeyInit_ok U C p mix nym now now' dp iv srv ks d d' : ceAddKeyInit U C p mix nym now now' dp iv srv ks d = Ok d' ->
  exists id dmn i r ki h priv sig, mapPlus U p = Ok (id, dmn) /\ getOwn C id true d = Ok (i, r) /\
    newKeyInit C i 0 (now + MaxNotAfter) 0 true dmn mix nym now' dp iv = Ok (ki, h, priv) /\
    d' = addPki ki h (kePub (uSigKey (idUid i))) priv sig d.
Proof.
  unfold ceAddKeyInit. intros H. apply rbind_ok in H as ([id dmn] & M & H). apply rbind_ok in H as ([i r] & E & H). apply rbind_ok in H as ([[ki h] priv] & K & H).
  apply rbind_ok in H as (a & A & H). destruct a as [[|[sig|] [|]]|]; try discriminate. destruct ks as [|k ks]; [discriminate|].
  apply rbind_ok in H as (? & V & H). injection H as <-. exists id, dmn, i, r, ki, h, priv, sig. auto.
Qed.
Lemma ceFetchKeyInit_ok C u srv d d' : ceFetchKeyInit C u srv d = Ok d' -> exists h s ki, sigKeyHash C (keHash (uSigKey u)) = Ok h /\ srv h = Ok (Some s) /\
  newJSONKeyInit s = Ok ki /\ d' = addFki ki d.
Proof.
  unfold ceFetchKeyInit. intros H. apply rbind_ok in H as (h & M & H). apply rbind_ok in H as (a & A & H). destruct a as [s|]; [|discriminate].
  apply rbind_ok in H as (ki & K & H). injection H as <-. exists h, s, ki. auto.
Qed.
Lemma readRow_uid i b rep j q : readRow i b rep = (j, q) -> idUid j = idUid i /\ q = rep.
Proof. unfold readRow. intros H. injection H as <- <-. auto. Qed.
Lemma readRow_true U C i sp ep rep : goodIdent U C i sp ep -> readRow i true rep = (i, rep).
Proof. intros _. unfold readRow. destruct i. reflexivity. Qed.
Lemma ownOk_step U C d o : ownOk U C d -> iopWf o -> ownOk U C (istep U C d o).
Proof.
  intros K W. destruct o as [p le yl sp ep|p srv ks|p sp|p|p mix nym now now' dp iv srv ks|u srv]; cbn [istep].
  - destruct (ceGenerate U C p le yl sp ep d) as [d'| |] eqn:E; cbn [orElse]; try exact K.
    apply ceGenerate_ok in E as (id & dmn & e & i & M & L & CR & A). destruct W as (Y & L1 & W1 & L2 & W2).
    destruct (create_good U C id [] [] e yl sp ep [] i CR Y L1 W1 L2 W2) as (G & _ & _). exact (ownOk_add U C i sp ep d d' K G A).
  - destruct (ceRegister_cases U C p srv ks d) as [[-> _]|(id & dmn & i & r & jsn & _ & _ & _ & J & -> & _)]; [exact K|].
    apply newJSONReply_wf in J. destruct K as (I1 & I2 & I3 & R). unfold addOwnReply, ownOk. cbn [dOwn dPki dFki].
    split; [apply idsOk_tupd, I1|]. split; [exact I2|]. split; [exact I3|]. intros x Ix. apply In_tupd in Ix as (y & Iy & Ex).
    destruct (R y Iy) as (j & sp & ep & rep & RO). destruct (beq (owMsg (snd y)) (uidJSON (idUid i))).
    + rewrite Ex. cbn [snd]. exists j, sp, ep, (Some r). destruct RO as (A1 & A2 & A3 & A4 & A5 & A6 & A7 & A8 & A9).
      unfold rowOf. cbn [owIdentity owCount owMsg owSig owEnc owReply]. repeat (split; [assumption|]). split; [reflexivity|]. intros q Q; injection Q as <-. exact J.
    + subst x. exists j, sp, ep, rep. exact RO.
  - destruct (ceGenupdate U C p sp d) as [d'| |] eqn:E; cbn [orElse]; try exact K.
    apply ceGenupdate_ok in E as (id & i & r & n & M & G & Up & A). destruct W as (L & W).
    destruct (getOwn_cases U C id true d K) as [[E _]|(nn & rr & j & sp0 & ep0 & rep & T & In & RO & ID & E & _)]; [congruence|].
    destruct RO as (GI & _). rewrite (readRow_true U C j sp0 ep0 rep GI) in E. rewrite E in G. injection G as <- <-.
    destruct (update_ok U C j sp0 ep0 sp n GI L W Up) as (GN & _). exact (ownOk_add U C n sp ep0 d d' K GN A).
  - destruct (ceDelete U C p d) as [d'| |] eqn:E; cbn [orElse]; try exact K. apply ceDelete_ok in E as (id & i & r & M & G & ->).
    destruct K as (I1 & I2 & I3 & R). unfold delOwn, ownOk. cbn [dOwn dPki dFki]. split; [apply idsOk_tdel, I1|]. split; [exact I2|]. split; [exact I3|].
    intros x Ix. apply In_tdel in Ix as (Ix & _). apply R, Ix.
  - destruct (ceAddKeyInit U C p mix nym now now' dp iv srv ks d) as [d'| |] eqn:E; cbn [orElse]; try exact K.
    apply ceAddKeyInit_ok in E as (id & dmn & i & r & ki & h & priv & sig & _ & _ & _ & ->). destruct K as (I1 & I2 & I3 & R). unfold addPki, ownOk. cbn [dOwn dPki dFki].
    split; [exact I1|]. split; [apply idsOk_tins, I2|]. split; [exact I3|exact R].
  - destruct (ceFetchKeyInit C u srv d) as [d'| |] eqn:E; cbn [orElse]; try exact K.
    apply ceFetchKeyInit_ok in E as (h & s & ki & _ & _ & _ & ->). destruct K as (I1 & I2 & I3 & R). unfold addFki, ownOk. cbn [dOwn dPki dFki].
    split; [exact I1|]. split; [exact I2|]. split; [apply idsOk_tins, I3|exact R].
Qed.
Lemma ownOk_empty U C : ownOk U C emptyIddb.
Proof. unfold ownOk. cbn [emptyIddb dOwn dPki dFki]. repeat split; try apply idsOk_nil. intros r []. Qed.
Lemma ownOk_run U C ops : forall d, ownOk U C d -> Forall iopWf ops -> ownOk U C (irun U C ops d).
Proof.
  induction ops as [|o ops IH]; intros d K F; [exact K|]. cbn [irun fold_left]. apply Forall_cons_iff in F as (W & F). apply IH; [|exact F]. apply ownOk_step; assumption.
Qed.

(* ------------------------------------------------------------------ *)
(* the row with the largest count *)
Lemma tmax_tins_new {A} (p : A -> bool) f a t : p a = true -> (forall s, In s t -> p (snd s) = true -> f (snd s) < f a) ->
  tmax p f (tins a t) = Some (nextId t, a).
Proof.
  intros P L. destruct (tmax p f (tins a t)) as [r|] eqn:T.
  - apply tmax_some in T as (I & Pr & M). specialize (M (nextId t, a) (proj2 (In_tins _ _ _) (or_intror eq_refl)) P). cbn [snd] in M.
    apply In_tins in I as [I| ->]; [|reflexivity]. specialize (L r I Pr). lia.
  - pose proof (tmax_none _ _ _ T (nextId t, a) (proj2 (In_tins _ _ _) (or_intror eq_refl))) as F. cbn [snd] in F. congruence.
Qed.
Lemma tmax_tins_other {A} (p : A -> bool) f a t : p a = false -> tmax p f (tins a t) = tmax p f t.
Proof.
  intros P. unfold tins. generalize (nextId t). intros n. induction t as [|x t IH]; cbn [app tmax snd]; [rewrite P; reflexivity|]. rewrite IH. reflexivity.
Qed.
Lemma tmax_tupd_other {A} (p : A -> bool) f q g (t : tbl A) : (forall r, In r t -> q (fst r) (snd r) = true -> p (snd r) = false /\ p (g (snd r)) = false) ->
  tmax p f (tupd q g t) = tmax p f t.
Proof.
  induction t as [|x t IH]; intros H; [reflexivity|]. cbn [tupd map]. cbn [tmax].
  change (map (fun r => if q (fst r) (snd r) then (fst r, g (snd r)) else r) t) with (tupd q g t). rewrite IH by (intros r I; apply H; right; exact I).
  destruct (q (fst x) (snd x)) eqn:Q; [|reflexivity]. destruct (H x (or_introl eq_refl) Q) as (A1 & A2). cbn [snd]. rewrite A1, A2. reflexivity.
Qed.
Lemma tmax_tdel_other {A} (p : A -> bool) f q (t : tbl A) : (forall r, In r t -> q (fst r) (snd r) = true -> p (snd r) = false) -> tmax p f (tdel q t) = tmax p f t.
Proof.
  induction t as [|x t IH]; intros H; [reflexivity|]. unfold tdel in *. cbn [filter].
  destruct (q (fst x) (snd x)) eqn:Q; cbn [negb tmax].
  - rewrite (H x (or_introl eq_refl) Q). apply IH. intros r I; apply H; right; exact I.
  - rewrite IH by (intros r I; apply H; right; exact I). reflexivity.
Qed.
Lemma getOwn_same C id b d d' : tmax (fun r => beq (owIdentity r) id) owCount (dOwn d') = tmax (fun r => beq (owIdentity r) id) owCount (dOwn d) ->
  getOwn C id b d' = getOwn C id b d.
Proof. intros E. unfold getOwn. rewrite E. reflexivity. Qed.
Lemma row_identity U C d r u : ownOk U C d -> uidWf u -> In r (dOwn d) -> owMsg (snd r) = uidJSON u -> owIdentity (snd r) = uIdentity u.
Proof.
  intros (_ & _ & _ & R) W I E. destruct (R r I) as (i & sp & ep & rep & G & A1 & A2 & A3 & _). rewrite A1. f_equal. apply uidJSON_inj; [apply (gi_wf _ _ _ _ _ G)|exact W|congruence].
Qed.
(* the nym a command works on *)
Definition opNym (U : Unicode) (o : iop) : res bytes :=
  match o with
  | IGenerate p _ _ _ _ | IRegister p _ _ | IUpdate p _ | IDelete p | IAddKeyInit p _ _ _ _ _ _ _ _ => imap U p
  | IFetchKeyInit _ _ => Err "none"
  end.
Lemma getOwn_frame U C d o id b : ownOk U C d -> iopWf o -> opNym U o <> Ok id -> getOwn C id b (istep U C d o) = getOwn C id b d.
Proof.
  intros K W N. destruct o as [p le yl sp ep|p srv ks|p sp|p|p mix nym now now' dp iv srv ks|u srv]; cbn [istep opNym] in *.
  - destruct (ceGenerate U C p le yl sp ep d) as [d'| |] eqn:E; cbn [orElse]; try reflexivity.
    apply ceGenerate_ok in E as (id' & dmn & e & i & M & L & CR & A). apply mapPlus_imap in M. destruct W as (Y & L1 & W1 & L2 & W2).
    destruct (create_good U C id' [] [] e yl sp ep [] i CR Y L1 W1 L2 W2) as (G & ID & _). destruct (addOwn_good U C i sp ep d d' G A) as (_ & ->).
    apply getOwn_same. cbn [dOwn]. apply tmax_tins_other. cbn [owIdentity]. apply beq_neq. congruence.
  - destruct (ceRegister_cases U C p srv ks d) as [[-> _]|(id' & dmn & i & r & jsn & M & G & _ & J & -> & _)]; [reflexivity|].
    apply mapPlus_imap in M. destruct (getOwn_cases U C id' false d K) as [[E _]|(nn & rr & j & sp0 & ep0 & rep & T & In & RO & ID & E & _)]; [congruence|].
    rewrite E in G. injection G as G1 G2. apply (f_equal idUid) in G1. cbn [idUid] in G1.
    apply getOwn_same. unfold addOwnReply. cbn [dOwn]. apply tmax_tupd_other. intros x Ix Q. apply beq_spec in Q. cbn [owIdentity].
    assert (F : beq (owIdentity (snd x)) id = false).
    { apply beq_neq. rewrite (row_identity U C d x (idUid i) K); [|rewrite <- G1; apply (gi_wf _ _ _ _ _ (proj1 RO))|exact Ix|exact Q]. rewrite <- G1, ID. congruence. }
    split; exact F.
  - destruct (ceGenupdate U C p sp d) as [d'| |] eqn:E; cbn [orElse]; try reflexivity.
    apply ceGenupdate_ok in E as (id' & i & r & n & M & G & Up & A). destruct W as (L & W).
    destruct (getOwn_cases U C id' true d K) as [[E _]|(nn & rr & j & sp0 & ep0 & rep & T & In & RO & ID & E & _)]; [congruence|].
    destruct RO as (GI & _). rewrite (readRow_true U C j sp0 ep0 rep GI) in E. rewrite E in G. injection G as <- <-.
    destruct (update_ok U C j sp0 ep0 sp n GI L W Up) as (GN & _ & _ & IN). destruct (addOwn_good U C n sp ep0 d d' GN A) as (_ & ->).
    apply getOwn_same. cbn [dOwn]. apply tmax_tins_other. cbn [owIdentity]. apply beq_neq. rewrite IN, ID. intros Q. apply N. rewrite M, Q. reflexivity.
  - destruct (ceDelete U C p d) as [d'| |] eqn:E; cbn [orElse]; try reflexivity. apply ceDelete_ok in E as (id' & i & r & M & G & ->).
    destruct (getOwn_cases U C id' false d K) as [[E _]|(nn & rr & j & sp0 & ep0 & rep & T & In & RO & ID & E & _)]; [congruence|].
    rewrite E in G. injection G as G1 G2. apply (f_equal idUid) in G1. cbn [idUid] in G1.
    apply getOwn_same. unfold delOwn. cbn [dOwn]. apply tmax_tdel_other. intros x Ix Q. apply beq_spec in Q.
    apply beq_neq. rewrite (row_identity U C d x (idUid i) K); [|rewrite <- G1; apply (gi_wf _ _ _ _ _ (proj1 RO))|exact Ix|exact Q]. rewrite <- G1, ID. intros X. apply N. rewrite M, X. reflexivity.
  - destruct (ceAddKeyInit U C p mix nym now now' dp iv srv ks d) as [d'| |] eqn:E; cbn [orElse]; try reflexivity.
    apply ceAddKeyInit_ok in E as (id' & dmn & i & r & ki & h & priv & sig & _ & _ & _ & ->). reflexivity.
  - destruct (ceFetchKeyInit C u srv d) as [d'| |] eqn:E; cbn [orElse]; try reflexivity.
    apply ceFetchKeyInit_ok in E as (h & s & ki & _ & _ & _ & ->). reflexivity.
Qed.

(* ------------------------------------------------------------------ *)
(* KeyInit messages *)
Lemma pairEq {A B} (a b : A) (c d : B) : (a, c) = (b, d) -> a = b /\ c = d.
Proof. intros E; injection E; auto. Qed.
Lemma ctr_round C k iv m : lenN k = 32 -> lenN iv = 16 -> ctrDecrypt C k (iv ++ xorb m (ctr C k iv (lenN m))) = Ok m.
Proof.
  intros Lk Li. unfold ctrDecrypt. rewrite Lk. change (32 =? 32) with true. cbn [negb].
  replace (lenN (iv ++ xorb m (ctr C k iv (lenN m))) <? 16) with false by (rewrite lenN_app; lia).
  rewrite dropN_app, takeN_app by exact Li. rewrite xorb_len by (symmetry; apply ctr_len). rewrite xorb_invol by (symmetry; apply ctr_len). reflexivity.
Qed.
Lemma wfb_sa sa : wfb (saMix sa) -> wfb (saNym sa) -> Forall keB (saKeys sa) -> wfb (saJSON sa).
Proof.
  intros A B D. apply (wfb_jprint _ _ (Nat.le_refl _)). unfold saToJson. constructor.
  apply Forall_cons; [cbn [fst snd]; split; [apply wfbb_spec; reflexivity|constructor; assumption]|].
  apply Forall_cons; [cbn [fst snd]; split; [apply wfbb_spec; reflexivity|constructor; assumption]|].
  apply Forall_cons; [cbn [fst snd]; split; [apply wfbb_spec; reflexivity|]|apply Forall_nil].
  destruct (saKeys sa) as [|k l]; [constructor|]. unfold jkes. constructor. apply Forall_forall. intros v Hv. apply in_map_iff in Hv as (y & <- & Hy).
  apply jb_ke. rewrite Forall_forall in D. apply D, Hy.
Qed.
Lemma keB_dh C p : keB (initDHKey C p).
Proof. unfold keB, initDHKey. cbn [keSuite keFunc keHash kePub]. repeat split; try apply wfb_b64enc; apply wfbb_spec; reflexivity. Qed.
(* a session anchor encrypted under the hash of a signature key is read with that key *)
Definition anchored (C : Crypto) (pk : bytes) (sa : sessAnchor) (iv : bytes) (c : kiContents) : Prop :=
  kcSigKeyHash c = b64enc (sha512 C (sha512 C pk)) /\ kcAnchorHash c = b64enc (sha512 C (saJSON sa)) /\
  kcAnchor c = b64enc (iv ++ xorb (saJSON sa) (ctr C (takeN 32 (sha512 C pk)) iv (lenN (saJSON sa)))).
Lemma sessionAnchor_ok C pk sa iv c sig : anchored C pk sa iv c -> wfb pk -> wfb iv -> lenN iv = 16 -> wfb (saJSON sa) ->
  sessionAnchor C (mkKI c sig) (b64enc pk) = Ok sa.
Proof.
  intros (E1 & E2 & E3) Wp Wi Li Ws. unfold sessionAnchor. cbn [kiCont]. rewrite b64dec_enc by exact Wp. rewrite E1, beq_refl. cbn [negb]. rewrite E3.
  rewrite b64dec_enc by (apply wfb_app; split; [exact Wi|apply xorb_wf; [exact Ws|apply ctr_wf]]).
  rewrite ctr_round; [|rewrite lenN_takeN, sha512_len; reflexivity|exact Li]. cbn [rbind]. rewrite newJSONAnchor_JSON. cbn [rbind]. rewrite E2, beq_refl. reflexivity.
Qed.
Lemma newKeyInit_ok U C i sp ep cnt na nb fb repo mix nym now dp iv ki h priv : goodIdent U C i sp ep ->
  newKeyInit C i cnt na nb fb repo mix nym now dp iv = Ok (ki, h, priv) ->
  nb < na /\ now <= na /\ na <= now + MaxNotAfter /\ (exists rs, uRepoURIs (idUid i) = repo :: rs) /\
  kcVersion (kiCont ki) = ProtocolVersion /\ kcMsgCount (kiCont ki) = cnt /\ kcNotAfter (kiCont ki) = na /\ kcNotBefore (kiCont ki) = nb /\ kcFallback (kiCont ki) = fb /\ kcRepo (kiCont ki) = repo /\
  anchored C (edpub C sp) (mkSA mix nym [initDHKey C dp]) iv (kiCont ki) /\ kiSig ki = b64enc (edsign C sp (kcJSON (kiCont ki))) /\
  h = keHash (initDHKey C dp) /\ priv = b64enc dp.
Proof.
  intros G. unfold newKeyInit. destruct (N.leb_spec na nb) as [|L1]; [discriminate|]. destruct (N.ltb_spec na now) as [|L2]; [discriminate|].
  destruct (N.ltb_spec (now + MaxNotAfter) na) as [|L3]; [discriminate|]. rewrite (gi_sk _ _ _ _ _ G). cbn [initSigKey keHash]. rewrite b64dec_enc by apply sha512_wf.
  destruct (uRepoURIs (idUid i)) as [|r rs]; [discriminate|]. destruct (beq repo r) eqn:R; [|discriminate]. apply beq_spec in R. subst r. cbn [negb].
  rewrite sha512_len. change (64 <? 32) with false. cbn iota. rewrite (gi_sp _ _ _ _ _ G). cbn [signWith rbind]. intros H.
  apply Ok_inj in H. apply pairEq in H as (H & <-). apply pairEq in H as (<- & <-). cbn [kiCont kcVersion kcMsgCount kcNotAfter kcNotBefore kcFallback kcRepo kiSig].
  repeat (split; [first [lia | reflexivity | exists rs; reflexivity | unfold anchored; cbn [kcSigKeyHash kcAnchor kcAnchorHash]; auto]|]). reflexivity.
Qed.
Lemma tmax_tins {A} (p : A -> bool) f a (t : tbl A) : p a = true ->
  tmax p f (tins a t) = match tmax p f t with Some r => if f (snd r) <? f a then Some (nextId t, a) else Some r | None => Some (nextId t, a) end.
Proof.
  intros P. unfold tins. generalize (nextId t). intros n. induction t as [|x t IH]; cbn [app tmax snd]; [rewrite P; reflexivity|]. rewrite IH.
  destruct (p (snd x)); [|reflexivity]. destruct (tmax p f t) as [r|]; cbn [snd].
  - destruct (N.ltb_spec (f (snd r)) (f a)); destruct (N.ltb_spec (f (snd x)) (f (snd r))); cbn [snd];
      repeat match goal with |- context [?a <? ?b] => destruct (N.ltb_spec a b) end; try reflexivity; lia.
  - destruct (N.ltb_spec (f (snd x)) (f a)); reflexivity.
Qed.
Lemma tmax_tupd {A} (p : A -> bool) f q g (t : tbl A) : (forall a, p (g a) = p a) -> (forall a, f (g a) = f a) ->
  tmax p f (tupd q g t) = match tmax p f t with Some r => Some (if q (fst r) (snd r) then (fst r, g (snd r)) else r) | None => None end.
Proof.
  intros P F. induction t as [|x t IH]; [reflexivity|]. cbn [tupd map tmax].
  change (map (fun r => if q (fst r) (snd r) then (fst r, g (snd r)) else r) t) with (tupd q g t). rewrite IH.
  assert (E1 : p (snd (if q (fst x) (snd x) then (fst x, g (snd x)) else x)) = p (snd x)) by (destruct (q (fst x) (snd x)); cbn [snd]; auto).
  assert (E2 : f (snd (if q (fst x) (snd x) then (fst x, g (snd x)) else x)) = f (snd x)) by (destruct (q (fst x) (snd x)); cbn [snd]; auto).
  rewrite E1, E2. destruct (p (snd x)); [|reflexivity]. destruct (tmax p f t) as [r|]; [|reflexivity].
  assert (E3 : f (snd (if q (fst r) (snd r) then (fst r, g (snd r)) else r)) = f (snd r)) by (destruct (q (fst r) (snd r)); cbn [snd]; auto).
  rewrite E3. destruct (f (snd x) <? f (snd r)); reflexivity.
Qed.
Lemma tdel_tins {A} q (a : A) t : (forall r, In r t -> q (fst r) (snd r) = false) -> (forall n, q n a = true) -> tdel q (tins a t) = t.
Proof.
  intros H Q. unfold tdel, tins. rewrite filter_app. cbn [filter fst snd]. rewrite Q. cbn [negb]. rewrite app_nil_r.
  induction t as [|x t IH]; [reflexivity|]. cbn [filter]. rewrite (H x (or_introl eq_refl)). cbn [negb]. rewrite IH; [reflexivity|]. intros r I; apply H; right; exact I.
Qed.
Lemma iddb_eta d : mkIddb (dOwn d) (dPki d) (dFki d) = d.
Proof. destruct d; reflexivity. Qed.
