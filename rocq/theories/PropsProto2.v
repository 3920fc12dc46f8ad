(* Theorems for C10, C11, C12, C13, C73, C74, and concrete cases for C01, C02, C07. *)
From Verif Require Import Base Base64Model Base64Proofs CodecModel CodecProofs JsonModel JsonProofs Maps CryptoModel StoreModel KeysModel KeysProofs MsgFormatModel MsgFormatProofs HeaderModel HeaderProofs PropsKeys PropsHeader ProtoModel ProtoProofs ProtoFirst PropsProto ProtoCases.
Local Open Scope N_scope.

(* ---- concrete cases for C01, C02 and C07 ---- *)
Lemma px_sigA : forall k, Some (hxKey 1) = Some k -> pub32 (uSigKey pxUidA) = Ok (edpub toy k).
Proof.
  intros k H. injection H as <-. unfold pub32, pxUidA, pxUid, hxSig. cbn [uSigKey kePub keFunc]. rewrite b64dec_enc by apply edpub_wf.
  rewrite beq_refl, orb_true_r, edpub_len. reflexivity.
Qed.
Lemma px_sigE : forall k, Some (hxKey 21) = Some k -> pub32 (uSigKey pxUidE) = Ok (edpub toy k).
Proof.
  intros k H. injection H as <-. unfold pub32, pxUidE, pxUid, hxSig. cbn [uSigKey kePub keFunc]. rewrite b64dec_enc by apply edpub_wf.
  rewrite beq_refl, orb_true_r, edpub_len. reflexivity.
Qed.
Lemma no_sig u : forall k, None = Some k -> pub32 (uSigKey u) = Ok (edpub toy k).
Proof. discriminate. Qed.
Example C01_case : forall c, lenN c <= 41691 ->
  exists w', run (encrypt toy (pxArgs pxUidA 2 (Some (hxKey 1)) c) pxRnd) pxAlice = (Ok pxNym, w') /\ lenN (wOut w') = 65536.
Proof. intros c L. apply px_runs; [apply px_uidA|auto|exact L]. Qed.
Lemma px_received u e sig c w' : pxUidOk u e -> e = 2 \/ e = 22 -> wfb c -> (forall k, sig = Some k -> pub32 (uSigKey u) = Ok (edpub toy k)) ->
  run (encrypt toy (pxArgs u e sig c) pxRnd) pxAlice = (Ok pxNym, w') ->
  exists s v, run (receive toy pxDec (wOut w')) pxBob = (Ok (str "alice@mute.berlin", s), v) /\ wOut v = c /\ (s = [] <-> sig = None).
Proof.
  intros U He Wc S R.
  destruct (C02_first_message toy (pxArgs u e sig c) pxRnd pxAlice pxNym w' pxDec pxBobId (hxKey e) (hxKey 5) (hxKey 6) pxBob [] [] R) as (s & v & R1 & R2 & R3).
  - apply px_first; assumption.
  - apply px_wf; assumption.
  - reflexivity.
  - exists []. reflexivity.
  - reflexivity.
  - reflexivity.
  - constructor.
  - reflexivity.
  - cbn [pxBob privKEs mget]. rewrite beq_refl. reflexivity.
  - reflexivity.
  - vm_compute. discriminate.
  - exists s, v. cbn [pxArgs eFrom idUid eStatus eContent eSigKey] in R1, R2, R3. destruct U as (U1 & _). rewrite U1 in R1. auto.
Qed.
Example C02_case : forall c, lenN c <= 41691 -> wfb c -> exists w' s v,
  run (encrypt toy (pxArgs pxUidA 2 (Some (hxKey 1)) c) pxRnd) pxAlice = (Ok pxNym, w') /\
  run (receive toy pxDec (wOut w')) pxBob = (Ok (str "alice@mute.berlin", s), v) /\ wOut v = c /\ s <> [].
Proof.
  intros c L W. destruct (px_runs pxUidA 2 (Some (hxKey 1)) c px_uidA (or_introl eq_refl) L) as (w' & R & _).
  destruct (px_received pxUidA 2 _ c w' px_uidA (or_introl eq_refl) W px_sigA R) as (s & v & R1 & R2 & R3).
  exists w', s, v. repeat split; try assumption. intros E. apply R3 in E. discriminate.
Qed.
Example C07_case : exists msg x w1, run (receive toy pxDec msg) pxBob = (Ok x, w1) /\ wOut w1 = [104; 105] /\
  forall y w2, run (receive toy pxDec msg) (wStore w1) <> (Ok y, w2).
Proof.
  destruct (C02_case [104; 105]) as (w' & s & v & _ & R & O & _); [vm_compute; discriminate|apply wfbb_spec; reflexivity|].
  exists (wOut w'), (str "alice@mute.berlin", s), v. split; [exact R|]. split; [exact O|].
  apply (C07_replay_rejected toy pxDec pxDec (wOut w') pxBob _ v [] R eq_refl).
Qed.

(* ------------------------------ C10 ------------------------------- *)
(* What Decrypt does with a message whose body is sealed under the right message key but carries a wrong HMAC: the
   whole content is written to the output, and the error comes afterwards.  This holds for every such message. *)
Theorem C10_wrong_mac_releases : forall C ra i h hpriv nonce hp mk iv content p mac st ke sk oss v1 v2 u,
  sealedHeader C ra i h hpriv nonce hp -> wfb (forgedBody C mk iv content None p mac) ->
  lenN content <= 41691 -> lenN iv = 16 -> lenN p = padLen content None -> lenN mac = 64 ->
  decState C ra (dhpub C hpriv) i h (mkWorld st [] []) = (Ok (ke, sk, oss), v1) ->
  decKey C i ke h sk oss (numKeys (dNumKeys ra)) v1 = (Ok mk, v2) -> newJSONUid (hUID h) = Ok u ->
  mac <> bodyMac C mk iv (plain1 content None) (plain2 C content None p) ->
  exists v, run (receive C ra (b64enc (rawMsg C hpriv hp (forgedBody C mk iv content None p mac)))) st = (Err "msg: HMACs differ", v) /\ wOut v = content.
Proof.
  intros C ra i h hpriv nonce hp mk iv content p mac st ke sk oss v1 v2 u SH WF LC LI LP LM DS DK HU HM.
  exists (steps v2 [OOutput content]). unfold run. rewrite (receive_tail _ _ _ _ _ _ _ _ _ SH WF).
  rewrite (decRest_forged _ _ _ _ _ mk iv content None p mac _ ke sk oss v1 v2 LC LI LP LM DS DK), HU. cbn [rbind sigCheck].
  destruct (beq _ mac) eqn:B; [apply beq_spec in B; congruence|]. split; [reflexivity|].
  rewrite steps_out. cbn [flat_map out_of]. rewrite app_nil_r.
  rewrite (traced_out _ _ _ _ _ (traced_decKey C i ke h sk oss _) DK keyOp_out), (traced_out _ _ _ _ _ (traced_decState C ra _ i h) DS decOp_out). reflexivity.
Qed.
Lemma wfb_forged C mk iv content sigKey p mac : wfb iv -> wfb content -> wfb p -> wfb mac -> wfb (forgedBody C mk iv content sigKey p mac).
Proof.
  intros Hi Hc Hp Hm. unfold forgedBody, bodyHead.
  assert (W2 : wfb (plain2 C content sigKey p)).
  { unfold plain2. destruct sigKey; [apply wfb_app; split|]; apply wfb_inner; cbn [newInnerHeader iContent]; try exact Hp. apply edsign_wf. }
  rewrite !wfb_app. repeat split; apply wfb_outer; cbn [bodySetup bodyEnc1 bodyEnc2 newOuterHeader oInner]; try assumption;
    apply xorb_wf; try assumption.
  - apply wfb_inner, Hc.
  - apply wfb_takeN, ctr_wf.
  - apply wfb_dropN, ctr_wf.
Qed.
Lemma other_mac m : exists mac, lenN mac = 64 /\ wfb mac /\ mac <> m.
Proof.
  destruct (beq m (repeat 0 64)) eqn:B.
  - apply beq_spec in B as ->. exists (repeat 1 64). split; [reflexivity|]. split; [apply wfb_repeat; lia|]. vm_compute. discriminate.
  - exists (repeat 0 64). split; [reflexivity|]. split; [apply wfb_repeat; lia|]. intros E. rewrite <- E, beq_refl in B. discriminate.
Qed.
(* alice's message to bob with its HMAC replaced *)
Lemma px_forged : exists p h hp, lenN p = padLen [104; 105] None /\ wfb p /\ hdrOf toy (pxArgs pxUidA 2 None [104; 105]) pxRnd pxState = Ok h /\
  newJSONUid (hUID h) = Ok pxUidA /\ sealedHeader toy pxDec pxBobId h (hxKey 9) (repeat 1 24) hp /\ encWf toy (pxArgs pxUidA 2 None [104; 105]) pxRnd pxState.
Proof.
  destruct (px_header pxUidA 2 None [104; 105] px_uidA) as (h & hp & HH & HP & P & LH).
  assert (W : encWf toy (pxArgs pxUidA 2 None [104; 105]) pxRnd pxState).
  { apply px_wf; [apply px_uidA|apply wfbb_spec; reflexivity|apply no_sig]. }
  exists (repeat 0 (N.to_nat (padLen [104; 105] None))), h, hp.
  split; [unfold lenN; rewrite repeat_length; apply N2Nat.id|]. split; [apply wfb_repeat; lia|]. split; [exact HH|]. split; [|split; [|exact W]].
  - pose proof (hdrOf_inv _ _ _ _ _ HH W) as (U1 & _). rewrite U1. apply newJSONUid_JSON, (ew_uid _ _ _ _ W).
  - apply (px_sealed pxUidA 2 None [104; 105]); try assumption; [apply px_uidA|apply wfbb_spec; reflexivity].
Qed.
Theorem C10_refuted : exists C ra msg st e v, run (receive C ra msg) st = (Err e, v) /\ wOut v = [104; 105].
Proof.
  destruct px_forged as (p & h & hp & LP & WP & HH & HU & SH & W).
  destruct (other_mac (bodyMac toy (pxMk 2) (repeat 2 16) (plain1 [104; 105] None) (plain2 toy [104; 105] None p))) as (mac & LM & WM & NM).
  destruct (px_bob pxUidA 2 None [104; 105] h (mkWorld pxBob [] []) px_uidA (or_introl eq_refl) HH W eq_refl eq_refl eq_refl) as (v1 & E1 & DS & DK).
  destruct (C10_wrong_mac_releases toy pxDec pxBobId h (hxKey 9) (repeat 1 24) hp (pxMk 2) (repeat 2 16) [104; 105] p mac pxBob (initDHKey toy (hxKey 5)) (pxSkB 2) (Some (ssReply toy (hxKey 7) (hxKey 6) (hxKey 8) pxNym)) v1 v1 pxUidA SH) as (v & R & O);
    try eassumption.
  - apply wfb_forged; try assumption; apply wfbb_spec; reflexivity.
  - vm_compute. discriminate.
  - reflexivity.
  - eexists toy, pxDec, _, pxBob, _, v. split; [exact R|exact O].
Qed.
(* What does hold: if Decrypt reports success, the content was sealed under the unused message key of the slot that is
   then deleted, and the HMAC over the three packets and the HMAC header verified under the same message key. *)
Theorem C10_success_authenticated_partial : forall C ra msg st id sig v, run (receive C ra msg) st = (Ok (id, sig), v) ->
  exists raw pre o2 o3 o4 o5 rest mk sk n t ih junk,
    b64dec msg = Some raw /\
    raw = pre ++ outer_write o2 true ++ outer_write o3 true ++ outer_write o4 true ++ outer_write o5 true ++ rest /\
    wTrace v = t ++ [OOutput (iContent ih); ODelMsgKey sk false n] /\ wOut v = iContent ih /\
    getMessageKeyR sk false n (fold_left (fun s o => apply_op o s) t st) = Ok mk /\
    oInner o5 = hmac512 C (dropN 32 (hkdf512 C mk 64)) (outer_write o2 true ++ outer_write o3 true ++ outer_write o4 true ++ outer_write o5 false) /\
    xorb (oInner o3) (ctr C (takeN 32 (hkdf512 C mk 64)) (oInner o2) (lenN (oInner o3))) = inner_write ih ++ junk.
Proof.
  intros C ra msg st id sig v H. unfold run, receive in H. destruct (b64dec msg) as [raw|] eqn:B; [|discriminate].
  pose proof (wfb_b64dec _ _ B) as WR.
  apply mbind_ok in H as ([[ver pre] s] & v0 & E0 & H). unfold lift in E0. injection E0 as E0 <-.
  destruct (negb (ver =? Version)); [discriminate|].
  apply readFirst_inv in E0 as (R0 & _ & _); [|exact WR]. rewrite R0, !wfb_app in WR. destruct WR as [_ WS].
  unfold decrypt in H. apply mbind_ok in H as ([[[hp i] h] s1] & v1 & E1 & H). unfold lift in E1. injection E1 as E1 <-.
  unfold decHeader in E1. apply rbind_ok in E1 as ([ph x0] & _ & E1). destruct (negb (pLenPub ph =? 32)); [discriminate|].
  assert (PK : forall ty cnt e s o s', wfb s -> packet ty cnt e s = Ok (o, s') -> s = outer_write o true ++ s' /\ wfb s' /\ wfb (oInner o)).
  { intros ty cnt e t o s' W P. unfold packet in P. apply rbind_ok in P as ([o0 t0] & P1 & P).
    destruct (negb (oType o0 =? ty)); [discriminate|]. destruct (negb (oCount o0 =? cnt)); [discriminate|]. injection P as -> ->.
    apply readOuter_inv in P1 as (Q1 & _ & _ & _ & _ & Q2); [|exact W]. split; [exact Q1|]. split; [exact Q2|].
    rewrite Q1 in W. unfold outer_write in W. rewrite !wfb_app in W. tauto. }
  apply rbind_ok in E1 as ([o1 s1'] & P1 & E1). destruct (PK _ _ _ _ _ _ WS P1) as (Q1 & W1 & _).
  apply rbind_ok in E1 as ([i0 h0] & _ & E1). injection E1 as <- -> -> ->.
  apply mbind_ok in H as ([[ke sk] oss] & v2 & E2 & H). apply mbind_ok in H as (mk & v3 & E3 & H).
  apply mbind_ok in H as ([[[o2 o3] ih] s2] & v4 & E4 & H). unfold lift in E4. injection E4 as E4 <-.
  apply mbind_ok in H as (u & v5 & E5 & H). rewrite emit_eq in E5. injection E5 as _ <-.
  apply mbind_ok in H as (sg & v6 & E6 & H). unfold lift in E6. injection E6 as E6 <-.
  apply mbind_ok in H as (u2 & v7 & E7 & H). apply delMessageKey_ok in E7. subst v7. unfold mret in H. injection H as <- <- <-.
  pose proof (decKey_get _ _ _ _ _ _ _ _ _ _ E3) as GK.
  (* the trace up to the key *)
  pose proof (traced_decState C ra (pPub ph) i h (mkWorld st [] [])) as (l1 & T1 & F1). rewrite E2 in T1. cbn [snd] in T1.
  pose proof (traced_decKey C i ke h sk oss (numKeys (dNumKeys ra)) v2) as (l2 & T2 & F2). rewrite E3 in T2. cbn [snd] in T2.
  assert (T3 : v3 = steps (mkWorld st [] []) (l1 ++ l2)) by (rewrite steps_app, <- T1; exact T2).
  unfold openContent in E4. rewrite derive_eq in E4. apply rbind_ok in E4 as ([o2' t2] & P2 & E4).
  destruct (PK _ _ _ _ _ _ W1 P2) as (Q2 & W2 & _). destruct (negb (oPLen o2' =? 16)); [discriminate|].
  apply rbind_ok in E4 as ([o3' t3] & P3 & E4). destruct (PK _ _ _ _ _ _ W2 P3) as (Q3 & W3 & W3').
  apply rbind_ok in E4 as ([ih' junk] & P4 & E4). destruct (N.land (iType ih') dataType =? 0); [discriminate|]. injection E4 as <- <- <- <-.
  apply readInner_inv in P4 as (Q4 & _); [|apply xorb_wf; [exact W3'|apply ctr_wf]].
  unfold openRest in E6. rewrite derive_eq in E6. apply rbind_ok in E6 as ([o4 t4] & P5 & E6).
  destruct (PK _ _ _ _ _ _ W3 P5) as (Q5 & W5 & _).
  apply rbind_ok in E6 as ([ih2 x2] & _ & E6). apply rbind_ok in E6 as (x3 & _ & E6). apply rbind_ok in E6 as (x4 & _ & E6).
  apply rbind_ok in E6 as (x5 & _ & E6). apply rbind_ok in E6 as ([o5 t5] & P6 & E6). destruct (PK _ _ _ _ _ _ W5 P6) as (Q6 & _ & _).
  destruct (beq _ (oInner o5)) eqn:BM in E6; [|discriminate]. apply beq_spec in BM.
  exists raw, (outer_write (newOuterHeader preHeaderPacket 0 pre) true ++ outer_write o1 true), o2', o3', o4, o5, t5, mk, sk, (hMsgCount h), (l1 ++ l2), ih', junk.
  split; [reflexivity|]. split; [rewrite R0, Q1, Q2, Q3, Q5, Q6, <- !app_assoc; reflexivity|].
  split; [cbn [step_op wTrace]; rewrite T3, steps_trace, <- !app_assoc; reflexivity|].
  split. { cbn [step_op wOut out_of]. rewrite app_nil_r.
    rewrite (traced_out _ _ _ _ _ (traced_decKey C i ke h sk oss _) E3 keyOp_out), (traced_out _ _ _ _ _ (traced_decState C ra _ i h) E2 decOp_out). reflexivity. }
  split. { rewrite T3, steps_store in GK. exact GK. }
  split; [symmetry; exact BM|exact Q4].
Qed.

(* ------------------------------ C11 ------------------------------- *)
(* The message of C10_refuted also changes bob's store for good: a session, a session key and a session state exist
   afterwards that were not there before. *)
Theorem C11_refuted : exists C ra msg st e v sk key, run (receive C ra msg) st = (Err e, v) /\
  mget sk (sessions st) = None /\ mget sk (sessions (wStore v)) <> None /\ mget key (states st) = None /\ mget key (states (wStore v)) <> None.
Proof.
  destruct px_forged as (p & h & hp & LP & WP & HH & HU & SH & W).
  destruct (other_mac (bodyMac toy (pxMk 2) (repeat 2 16) (plain1 [104; 105] None) (plain2 toy [104; 105] None p))) as (mac & LM & WM & NM).
  destruct (px_bob pxUidA 2 None [104; 105] h (mkWorld pxBob [] []) px_uidA (or_introl eq_refl) HH W eq_refl eq_refl eq_refl) as (v1 & E1 & DS & DK).
  assert (WF : wfb (forgedBody toy (pxMk 2) (repeat 2 16) [104; 105] None p mac)) by (apply wfb_forged; try assumption; apply wfbb_spec; reflexivity).
  assert (LC : lenN [104; 105] <= 41691) by (vm_compute; discriminate).
  eexists toy, pxDec, _, pxBob, "msg: HMACs differ"%string, (steps v1 [OOutput [104; 105]]), (pxSkB 2), (calcStateKey toy (dhpub toy (hxKey 5)) (dhpub toy (hxKey 2))).
  split.
  { unfold run. rewrite (receive_tail _ _ _ _ _ _ _ _ _ SH WF).
    rewrite (decRest_forged _ _ _ _ _ (pxMk 2) (repeat 2 16) [104; 105] None p mac _ _ _ _ v1 v1 LC eq_refl LP LM DS DK), HU. cbn [rbind sigCheck].
    destruct (beq _ mac) eqn:B; [apply beq_spec in B; congruence|]. reflexivity. }
  split; [reflexivity|]. rewrite E1. unfold decFirstOps. cbn [steps fold_left step_op wStore]. cbn [apply_op addKey sessions states].
  split; [|split; [reflexivity|rewrite mget_mset_same; discriminate]].
  match goal with |- mget _ (sessions (apply_op ?o pxBob)) <> None => change (mget (pxSkB 2) (sessions (apply_op o pxBob)) <> None) end.
  unfold pxSkB. rewrite newSess_get; [discriminate|reflexivity].
Qed.
(* What does hold of rejected messages.  1. No message key is consumed. *)
Theorem C11_no_key_consumed_partial : forall C ra msg st res v, run (receive C ra msg) st = (res, v) -> (forall x, res <> Ok x) ->
  forall sk b n, ~ In (ODelMsgKey sk b n) (wTrace v).
Proof.
  intros C ra msg st res v H NO.
  assert (K : forall l sk b n, Forall (fun o => decOp o \/ exists c, o = OOutput c) l -> ~ In (ODelMsgKey sk b n) l).
  { intros l sk b n F I. rewrite Forall_forall in F. destruct (F _ I) as [[Q|Q]|[c Q]]; try contradiction. discriminate. }
  assert (KK : forall o, keyOp o -> decOp o \/ exists c, o = OOutput c) by (left; left; assumption).
  assert (KD : forall o, decOp o -> decOp o \/ exists c, o = OOutput c) by (left; assumption).
  assert (T : exists l, v = steps (mkWorld st [] []) l /\ Forall (fun o => decOp o \/ exists c, o = OOutput c) l).
  { unfold run, receive in H. destruct (b64dec msg) as [raw|]; [|injection H as <- <-; exists []; split; [reflexivity|constructor]].
    unfold mbind at 1, lift at 1 in H. destruct (ReadFirstOuterHeader raw) as [[[ver pre] s]|e|]; [|injection H as <- <-; exists []; split; [reflexivity|constructor]..].
    destruct (negb (ver =? Version)); [injection H as <- <-; exists []; split; [reflexivity|constructor]|].
    unfold decrypt in H. unfold mbind at 1, lift at 1 in H.
    destruct (decHeader C (dIds ra) pre s) as [[[[hp i] h] s1]|e|]; [|injection H as <- <-; exists []; split; [reflexivity|constructor]..].
    unfold mbind at 1 in H. pose proof (traced_decState C ra hp i h (mkWorld st [] [])) as (l1 & T1 & F1).
    apply (Forall_impl _ KD) in F1.
    destruct (decState C ra hp i h (mkWorld st [] [])) as [[[[ke sk] oss]|e|] v1]; cbn [snd] in T1; [|injection H as <- <-; exists l1; auto..].
    unfold mbind at 1 in H. pose proof (traced_decKey C i ke h sk oss (numKeys (dNumKeys ra)) v1) as (l2 & T2 & F2).
    apply (Forall_impl _ KK) in F2.
    assert (F12 := proj2 (Forall_app _ l1 l2) (conj F1 F2)).
    destruct (decKey C i ke h sk oss (numKeys (dNumKeys ra)) v1) as [[mk|e|] v2] eqn:DK; cbn [snd] in T2; rewrite T1, <- steps_app in T2;
      [|injection H as <- <-; exists (l1 ++ l2); auto..].
    unfold mbind at 1, lift at 1 in H. destruct (openContent C mk s1) as [[[[o2 o3] ih] s2]|e|]; [|injection H as <- <-; exists (l1 ++ l2); auto..].
    erewrite bind_ok in H by (apply emit_eq).
    assert (F3 : Forall (fun o => decOp o \/ exists c, o = OOutput c) ((l1 ++ l2) ++ [OOutput (iContent ih)])).
    { apply Forall_app. split; [exact F12|]. constructor; [right; eexists; reflexivity|constructor]. }
    assert (T3 : step_op v2 (OOutput (iContent ih)) = steps (mkWorld st [] []) ((l1 ++ l2) ++ [OOutput (iContent ih)])) by (rewrite steps_app, <- T2; reflexivity).
    unfold mbind at 1, lift at 1 in H. destruct (openRest C mk (hUID h) o2 o3 ih s2) as [sig|e|]; [|injection H as <- <-; eexists; split; [exact T3|exact F3]..].
    erewrite bind_ok in H by (eapply delMessageKey_does; cbn [step_op wStore apply_op]; eapply decKey_get; exact DK).
    injection H as <- _. exfalso. eapply NO. reflexivity. }
  destruct T as (l & -> & F). rewrite steps_trace. intros sk b n. apply K, F.
Qed.
(* 2. If no identity opens the header, nothing is stored and nothing released. *)
Theorem C11_unopened_unchanged_partial : forall C ra msg st res v, run (receive C ra msg) st = (res, v) ->
  (forall raw ver pre s, b64dec msg = Some raw -> ReadFirstOuterHeader raw = Ok (ver, pre, s) -> forall x, decHeader C (dIds ra) pre s <> Ok x) ->
  wStore v = st /\ wOut v = [] /\ forall x, res <> Ok x.
Proof.
  intros C ra msg st res v H NH. unfold run, receive in H. destruct (b64dec msg) as [raw|] eqn:B; [|injection H as <- <-; repeat split; discriminate].
  unfold mbind at 1, lift at 1 in H. destruct (ReadFirstOuterHeader raw) as [[[ver pre] s]|e|] eqn:R; [|injection H as <- <-; repeat split; discriminate..].
  specialize (NH raw ver pre s eq_refl R).
  destruct (negb (ver =? Version)); [injection H as <- <-; repeat split; discriminate|].
  unfold decrypt in H. unfold mbind at 1, lift at 1 in H.
  destruct (decHeader C (dIds ra) pre s) as [x|e|]; [destruct (NH x eq_refl)|injection H as <- <-; repeat split; discriminate..].
Qed.
(* 3. A message for a session that is not stored and whose temporary key is not one of our published keys: the store
   stays as it is. *)
Theorem C11_unknown_session_unchanged_partial : forall C ra msg st res v raw ver pre s hp i h s1 ke,
  b64dec msg = Some raw -> ReadFirstOuterHeader raw = Ok (ver, pre, s) -> decHeader C (dIds ra) pre s = Ok (hp, i, h, s1) ->
  pubKey (idUid i) = Ok ke ->
  mget (calcKey C (keHash ke) (keHash (hSenderPub h)) (hRecipTempHash h) (keHash (hSessPub h))) (sessions st) = None ->
  mget (hRecipTempHash h) (privKEs st) = None ->
  run (receive C ra msg) st = (res, v) -> wStore v = st /\ wOut v = [] /\ forall x, res <> Ok x.
Proof.
  intros C ra msg st res v raw ver pre s hp i h s1 ke B R D PK GS GP H. unfold run, receive in H. rewrite B, R, lift_bind in H.
  destruct (negb (ver =? Version)); [injection H as <- <-; repeat split; discriminate|].
  unfold decrypt in H. rewrite D, lift_bind in H. unfold decState in H. unfold mbind at 1 2 in H. rewrite PK in H. unfold lift at 1 in H.
  unfold mbind at 1 in H. unfold lift at 1 in H. destruct (pub32 ke) as [rp|e|]; [|injection H as <- <-; repeat split; discriminate..].
  unfold mbind at 1 in H. unfold lift at 1 in H. destruct (pub32 (hSenderPub h)) as [sp|e|]; [|injection H as <- <-; repeat split; discriminate..].
  unfold mbind at 1 in H. unfold getSessionState, ask in H. cbn [wStore] in H. unfold mbind at 1 in H. unfold hasSession, ask, mhas in H. cbn [wStore] in H.
  rewrite GS in H. unfold mbind at 1 in H. unfold decUnknown in H. unfold mbind at 1 in H. unfold getPrivateKeyEntry, ask in H. cbn [wStore] in H. rewrite GP in H.
  unfold mret in H. unfold mbind at 1 in H. unfold decKey in H. unfold mbind at 1 in H. unfold numMessageKeys, memSession in H. cbn [wStore] in H. rewrite GS in H.
  cbn [rbind] in H. injection H as <- <-. repeat split; discriminate.
Qed.

(* ------------------------------ C12 ------------------------------- *)
(* [out] is a message whose content c is sealed under message key mk *)
Definition sealedUnder (C : Crypto) (mk out c : bytes) : Prop :=
  exists hpriv hp iv sig pad body, sealBody C mk iv c sig pad = Ok body /\ out = b64enc (rawMsg C hpriv hp body).
(* the store after the program stopped when k operations were done *)
Definition crashed (st : store) (t : list op) (k : nat) : store := fold_left (fun s o => apply_op o s) (firstn k t) st.
(* sending slot used up *)
Definition sendUsed (sk : bytes) (i : N) (st : store) : Prop :=
  exists s, mget sk (sessions st) = Some s /\ (N.to_nat i < length (sSend s))%nat /\ nthN i (sSend s) = [].
Lemma sendUsed_apply sk i o st : sendUsed sk i st -> sendUsed sk i (apply_op o st).
Proof.
  intros (s & G & L & E). unfold sendUsed. destruct o; cbn [apply_op sessions]; try (exists s; auto; fail).
  - rewrite mget_mset. destruct (beq sk sk0) eqn:B; [|exists s; auto].
    apply beq_spec in B. subst sk0. rewrite G. eexists. split; [reflexivity|]. cbn [sSend]. rewrite app_length. split; [lia|].
    rewrite nthN_to_nat in *. rewrite app_nth1 by lia. exact E.
  - destruct (mget hash (skeys st)); cbn [sessions]; exists s; auto.
  - destruct (mget sk0 (sessions st)) as [s0|] eqn:G0; [|exists s; auto]. cbn [sessions].
    rewrite mget_mset. destruct (beq sk sk0) eqn:B; [|exists s; auto].
    apply beq_spec in B. subst sk0. rewrite G in G0. injection G0 as <-. eexists. split; [reflexivity|].
    destruct sender; cbn [sSend]; [|auto]. rewrite set_nth_length. split; [exact L|].
    rewrite nthN_to_nat in *. destruct (Nat.eq_dec (N.to_nat i) (N.to_nat i0)) as [Q|Q].
    + rewrite Q. apply nth_set_same. lia.
    + rewrite nth_set_other by exact Q. exact E.
Qed.
Lemma sendUsed_ops sk i l : forall w, sendUsed sk i (wStore w) -> sendUsed sk i (wStore (steps w l)).
Proof.
  induction l as [|o l IH]; intros w H; [exact H|]. cbn [steps fold_left]. apply IH. cbn [step_op wStore]. apply sendUsed_apply, H.
Qed.
Lemma sendUsed_traced {A} P (m : M A) sk i w : traced P m -> sendUsed sk i (wStore w) -> sendUsed sk i (wStore (snd (m w))).
Proof. intros T H. destruct (T w) as (l & -> & _). apply sendUsed_ops, H. Qed.
Lemma sendUsed_ev C sk i e st : sendUsed sk i st -> sendUsed sk i (evStep C st e).
Proof.
  intros H. destruct e; cbn [evStep]; unfold run.
  - apply (sendUsed_traced _ _ _ _ (mkWorld st [] []) (traced_encrypt C a r) H).
  - apply (sendUsed_traced _ _ _ _ (mkWorld st [] []) (traced_receive C ra msg) H).
  - exact H.
Qed.
Lemma sendUsed_get sk i st k : sendUsed sk i st -> getMessageKeyR sk true i st <> Ok k.
Proof.
  intros (s & G & L & E). unfold getMessageKeyR, memSession. rewrite G. cbn [rbind]. destruct (_ <=? _); [discriminate|].
  rewrite E. discriminate.
Qed.
Lemma encKey_get C a ss w sk mk w' : encKey C a ss w = (Ok (sk, mk), w') -> getMessageKeyR sk true (stMsgCount ss) (wStore w') = Ok mk.
Proof.
  intros H3. unfold encKey in H3. apply mbind_ok in H3 as (k1 & v1 & _ & H3). apply mbind_ok in H3 as (k2 & v2 & _ & H3).
  apply mbind_ok in H3 as (k3 & v3 & _ & H3). apply mbind_ok in H3 as (k4 & v4 & _ & H3). apply mbind_ok in H3 as (k5 & v5 & H4 & H3).
  unfold mret in H3. injection H3 as <- <- <-. unfold getMessageKey in H4. injection H4 as H4 <-. exact H4.
Qed.
Lemma sendUsed_del sk i st mk : getMessageKeyR sk true i st = Ok mk -> sendUsed sk i (apply_op (ODelMsgKey sk true i) st).
Proof.
  intros GK. unfold getMessageKeyR, memSession in GK. cbn [apply_op].
  destruct (mget sk (sessions st)) as [se|] eqn:G; [|discriminate]. cbn [rbind] in GK.
  destruct (N.leb_spec (lenN (sSend se)) i) as [|L]; [discriminate|]. unfold lenN in L.
  eexists. cbn [sessions]. rewrite mget_mset_same. split; [reflexivity|]. cbn [sSend]. rewrite set_nth_length. split; [lia|].
  rewrite nthN_to_nat. apply nth_set_same. lia.
Qed.
(* The operations of a successful call end with output, deletion of the key, session state.  A crash before the
   output lets nothing out; a crash after the deletion, followed by any events, can never lead to a second message
   under the same stored key. *)
Theorem C12_outside_window_partial : forall C a r st nym w, run (encrypt C a r) st = (Ok nym, w) ->
  exists t out sk n mk key ss, wTrace w = t ++ [OOutput out; ODelMsgKey sk true n; OSetState key ss] /\
    sealedUnder C mk out (if eStatus a =? 0 then eContent a else []) /\
    getMessageKeyR sk true n (fold_left (fun s o => apply_op o s) t st) = Ok mk /\
    (forall k, (k <= length t)%nat -> flat_map out_of (firstn k (wTrace w)) = []) /\
    (forall k between a2 r2 nym2 w2, (length t + 2 <= k)%nat ->
       run (encrypt C a2 r2) (fold_left (evStep C) between (crashed st (wTrace w) k)) = (Ok nym2, w2) ->
       forall sk2 n2, In (ODelMsgKey sk2 true n2) (wTrace w2) -> (sk2, n2) <> (sk, n)).
Proof.
  intros C a r st nym w H. unfold run in H. apply encrypt_ok in H as (ss & w1 & w2 & hp & sk & mk & body & fk & tk & E).
  pose proof (eo_state _ _ _ _ _ _ _ _ _ _ _ _ _ _ _ E) as ES. pose proof (eo_key _ _ _ _ _ _ _ _ _ _ _ _ _ _ _ E) as EK.
  pose proof (traced_encState C a r (mkWorld st [] [])) as (l1 & T1 & F1). rewrite ES in T1. cbn [snd] in T1.
  pose proof (traced_encKey C a ss w1) as (l2 & T2 & F2). rewrite EK in T2. cbn [snd] in T2.
  assert (T3 : w2 = steps (mkWorld st [] []) (l1 ++ l2)) by (rewrite steps_app, <- T1; exact T2).
  pose proof (encKey_get _ _ _ _ _ _ _ EK) as GK. rewrite T3, steps_store in GK. cbn [wStore] in GK.
  assert (TR : wTrace w = (l1 ++ l2) ++ [OOutput (b64enc (rawMsg C (rHeaderPriv r) hp body)); ODelMsgKey sk true (stMsgCount ss); OSetState (calcStateKey C fk tk) (bumped ss)]).
  { rewrite (eo_end _ _ _ _ _ _ _ _ _ _ _ _ _ _ _ E), T3, <- steps_app, steps_trace. reflexivity. }
  exists (l1 ++ l2), (b64enc (rawMsg C (rHeaderPriv r) hp body)), sk, (stMsgCount ss), mk, (calcStateKey C fk tk), (bumped ss).
  split; [exact TR|]. split.
  { exists (rHeaderPriv r), hp, (rIv r), (eSigKey a), (rPad r), body. split; [apply (eo_body _ _ _ _ _ _ _ _ _ _ _ _ _ _ _ E)|reflexivity]. }
  split; [exact GK|]. split.
  - intros k Hk. rewrite TR, firstn_app. replace (k - length (l1 ++ l2))%nat with O by lia. cbn [firstn]. rewrite app_nil_r.
    assert (F : Forall keyOp (firstn k (l1 ++ l2))).
    { rewrite Forall_forall. intros o Ho. assert (Ho2 : In o (l1 ++ l2)) by (rewrite <- (firstn_skipn k (l1 ++ l2)); apply in_or_app; auto). apply in_app_iff in Ho2. rewrite Forall_forall in F1, F2. destruct Ho2; auto. }
    induction F as [|o l Ho F IH]; [reflexivity|]. cbn [flat_map]. rewrite (keyOp_out o Ho), IH. reflexivity.
  - intros k between a2 r2 nym2 v2 Hk R2 sk2 n2 I2 EQ. injection EQ as -> ->.
    assert (U : sendUsed sk (stMsgCount ss) (fold_left (evStep C) between (crashed st (wTrace w) k))).
    { assert (U0 : sendUsed sk (stMsgCount ss) (crashed st (wTrace w) k)).
      { unfold crashed. rewrite TR, firstn_app, (firstn_all2 (l1 ++ l2)) by lia.
        destruct (k - length (l1 ++ l2))%nat as [|[|k']] eqn:K; [lia|lia|].
        cbn [firstn]. rewrite fold_left_app. cbn [fold_left].
        set (st1 := fold_left (fun s o => apply_op o s) (l1 ++ l2) st) in *.
        assert (U1 := sendUsed_del _ _ _ _ GK).
        destruct k'; cbn [firstn fold_left]; [exact U1|]. rewrite firstn_nil. cbn [fold_left]. apply sendUsed_apply, U1. }
      clear - U0. revert U0. generalize (crashed st (wTrace w) k). induction between as [|e l IH]; intros s0 U0; [exact U0|]. cbn [fold_left]. apply IH, sendUsed_ev, U0. }
    set (st2 := fold_left (evStep C) between (crashed st (wTrace w) k)) in *.
    unfold run in R2. apply encrypt_ok in R2 as (ss2 & x1 & x2 & hp2 & sk2 & mk2 & body2 & fk2 & tk2 & E2).
    pose proof (eo_state _ _ _ _ _ _ _ _ _ _ _ _ _ _ _ E2) as ES2. pose proof (eo_key _ _ _ _ _ _ _ _ _ _ _ _ _ _ _ E2) as EK2.
    pose proof (traced_encState C a2 r2 (mkWorld st2 [] [])) as (m1 & M1 & G1). rewrite ES2 in M1. cbn [snd] in M1.
    pose proof (traced_encKey C a2 ss2 x1) as (m2 & M2 & G2). rewrite EK2 in M2. cbn [snd] in M2.
    assert (M3 : x2 = steps (mkWorld st2 [] []) (m1 ++ m2)) by (rewrite steps_app, <- M1; exact M2).
    rewrite (eo_end _ _ _ _ _ _ _ _ _ _ _ _ _ _ _ E2), M3, <- steps_app, steps_trace in I2. cbn [wTrace app] in I2.
    rewrite !in_app_iff in I2. rewrite Forall_forall in G1, G2.
    destruct I2 as [[I2|I2]|I2]; [exact (G1 _ I2)|exact (G2 _ I2)|].
    destruct I2 as [I2|[I2|[I2|[]]]]; try discriminate. injection I2 as I2 I3. subst sk2.
    apply (sendUsed_get sk (stMsgCount ss) (wStore x2) mk2).
    + rewrite M3. apply sendUsed_ops, U.
    + rewrite <- I3. apply (encKey_get _ _ _ _ _ _ _ EK2).
Qed.
Lemma okpair_inj {A B} (a a' : A) (b b' : B) (w w' : world) : (Ok (a, b), w) = (Ok (a', b'), w') -> a = a' /\ b = b' /\ w = w'.
Proof. intros H. now injection H. Qed.
(* The remaining crash point, after the output and before the deletion: the second message is sealed under the same key. *)
Opaque toy pxUidA pxState.
Theorem C12_refuted : exists C a r a2 r2 st nym w k out1 nym2 w2 out2 mk,
  run (encrypt C a r) st = (Ok nym, w) /\ flat_map out_of (firstn k (wTrace w)) = out1 /\
  run (encrypt C a2 r2) (crashed st (wTrace w) k) = (Ok nym2, w2) /\ wOut w2 = out2 /\
  sealedUnder C mk out1 [1] /\ sealedUnder C mk out2 [2].
Proof.
  assert (L1 : lenN [1] <= 41691) by (vm_compute; discriminate). assert (L2 : lenN [2] <= 41691) by (vm_compute; discriminate).
  destruct (px_runs pxUidA 2 None [1] px_uidA (or_introl eq_refl) L1) as (w & R & _).
  pose proof R as R0. unfold run in R0. apply encrypt_ok in R0 as (ss & w1 & w2 & hp & sk & mk & body & fk & tk & E).
  pose proof (eo_state _ _ _ _ _ _ _ _ _ _ _ _ _ _ _ E) as ES. rewrite (px_state pxUidA 2 None [1] px_uidA (or_introl eq_refl)) in ES. apply okpair_inj in ES as (_ & <- & <-).
  pose proof (eo_key _ _ _ _ _ _ _ _ _ _ _ _ _ _ _ E) as EK. rewrite (px_key pxUidA 2 None [1] _ px_uidA (px_sess pxUidA 2 None [1] px_uidA)) in EK. apply okpair_inj in EK as (<- & <- & <-).
  pose proof (eo_end _ _ _ _ _ _ _ _ _ _ _ _ _ _ _ E) as EE. rewrite <- steps_app in EE.
  set (out1 := b64enc (rawMsg toy (rHeaderPriv pxRnd) hp body)) in *.
  assert (TR : wTrace w = pxOps pxUidA 2 None [1] ++ [OOutput out1; ODelMsgKey (pxSkA 2) true (stMsgCount pxState); OSetState (calcStateKey toy fk tk) (bumped pxState)])
    by (rewrite EE, steps_trace; reflexivity).
  set (st1 := wStore (steps (mkWorld pxAlice [] []) (pxOps pxUidA 2 None [1]))).
  assert (CR : crashed pxAlice (wTrace w) 4 = st1).
  { unfold crashed, st1. rewrite TR, steps_store. reflexivity. }
  assert (ES2 : encState toy (pxArgs pxUidA 2 None [2]) pxRnd (mkWorld st1 [] []) = (Ok (pxNym, pxState), mkWorld st1 [] [])).
  { unfold encState. cbn [pxArgs eFrom eTo eStatus idUid]. rewrite (pubKey_cons pxUidA (initDHKey toy (hxKey 2)) []) by reflexivity.
    rewrite (pubKey_cons hxTo (initDHKey toy (hxKey 5)) []) by reflexivity. do 4 rewrite ?lift_bind, ?initDHKey_pub32.
    assert (G : getSessionState (calcStateKey toy (dhpub toy (hxKey 2)) (dhpub toy (hxKey 5))) (mkWorld st1 [] []) = (Ok (Some pxState), mkWorld st1 [] [])).
    { unfold getSessionState, ask. cbn [wStore]. unfold st1, pxOps, encFirstOps. cbn [steps fold_left step_op wStore]. cbn [apply_op states].
      rewrite mget_mset_same. reflexivity. }
    change (0 =? StatusReset) with false. cbv iota. erewrite bind_ok by exact G. reflexivity. }
  destruct (px_header pxUidA 2 None [2] px_uidA) as (h2 & hp2 & _ & HP2 & _ & LH2).
  assert (EK2 := px_key pxUidA 2 None [2] (mkWorld st1 [] []) px_uidA (px_sess pxUidA 2 None [1] px_uidA)).
  destruct (C01_never_fails_on_size toy (pxArgs pxUidA 2 None [2]) pxRnd (mkWorld st1 [] []) pxNym pxState _ hp2 (pxSkA 2) (pxMk 2) _ ES2 HP2 LH2 EK2 L2 eq_refl eq_refl)
    as (v2 & R2 & _).
  pose proof R2 as R3. apply encrypt_ok in R3 as (ss3 & x1 & x2 & hp3 & sk3 & mk3 & body3 & fk3 & tk3 & E3).
  pose proof (eo_state _ _ _ _ _ _ _ _ _ _ _ _ _ _ _ E3) as ES3. rewrite ES2 in ES3. apply okpair_inj in ES3 as (_ & <- & <-).
  pose proof (eo_key _ _ _ _ _ _ _ _ _ _ _ _ _ _ _ E3) as EK3. rewrite EK2 in EK3. apply okpair_inj in EK3 as (<- & <- & <-).
  exists toy, (pxArgs pxUidA 2 None [1]), pxRnd, (pxArgs pxUidA 2 None [2]), pxRnd, pxAlice, pxNym, w, 4%nat, out1, pxNym, v2, (wOut v2), (pxMk 2).
  split; [exact R|]. split.
  { rewrite TR. unfold pxOps, encFirstOps. cbn [app firstn flat_map out_of newSess addKey]. apply app_nil_r. }
  split; [rewrite CR; exact R2|]. split; [reflexivity|]. split.
  - exists (rHeaderPriv pxRnd), hp, (rIv pxRnd), None, (rPad pxRnd), body. split; [apply (eo_body _ _ _ _ _ _ _ _ _ _ _ _ _ _ _ E)|reflexivity].
  - exists (rHeaderPriv pxRnd), hp3, (rIv pxRnd), None, (rPad pxRnd), body3. split; [apply (eo_body _ _ _ _ _ _ _ _ _ _ _ _ _ _ _ E3)|].
    rewrite (encrypt_out _ _ _ _ _ _ _ _ _ _ _ _ _ _ _ E3). reflexivity.
Qed.
Transparent toy pxUidA pxState.

(* ------------------------------ C13 ------------------------------- *)
(* the conversation of the two keys fk, tk is stuck: the state names a message key that is used up *)
Record blocked (C : Crypto) (fk tk x y : keyEntry) (n : N) (st : store) : Prop := {
  bl_state : exists fp tp ss, pub32 fk = Ok fp /\ pub32 tk = Ok tp /\ mget (calcStateKey C fp tp) (states st) = Some ss /\
               stSenderPub ss = x /\ stRecipTemp ss = y /\ stMsgCount ss = n;
  bl_used : sendUsed (calcKey C (keHash fk) (keHash tk) (keHash x) (keHash y)) n st }.
Lemma blocked_encState C fk tk x y n a r w res w' :
  pubKey (idUid (eFrom a)) = Ok fk -> pubKey (eTo a) = Ok tk -> eStatus a <> StatusReset -> blocked C fk tk x y n (wStore w) ->
  encState C a r w = (res, w') -> blocked C fk tk x y n (wStore w') /\
  forall nym ss, res = Ok (nym, ss) -> stSenderPub ss = x /\ stRecipTemp ss = y /\ stMsgCount ss = n.
Proof.
  intros F T S B H. pose proof B as [(fp & tp & ss & P1 & P2 & G & X & Y & N0) U]. unfold encState in H. rewrite F, T in H.
  do 4 rewrite ?lift_bind, ?P1, ?P2 in H.
  replace (eStatus a =? StatusReset) with false in H by (symmetry; apply N.eqb_neq; exact S).
  erewrite bind_ok in H by (unfold getSessionState, ask; rewrite G; reflexivity). cbv beta iota in H.
  destruct (eStatus a =? StatusError).
  { injection H as <- <-. split; [exact B|]. intros nym s0 E. injection E as <- <-. auto. }
  destruct (stNextSender ss) as [own|].
  { injection H as <- <-. split; [exact B|]. intros nym s0 E. injection E as <- <-. auto. }
  destruct (rCoin r).
  - unfold setNextSenderSessionPub, addSessionKey in H. unfold mbind, emit in H. cbv zeta in H. cbv iota beta in H. injection H as <- <-. split.
    + constructor.
      * exists fp, tp. eexists. split; [exact P1|]. split; [exact P2|]. cbn [step_op wStore apply_op states]. split; [apply mget_mset_same|].
        cbn [stSenderPub stRecipTemp stMsgCount]. auto.
      * cbn [step_op wStore]. apply sendUsed_apply, sendUsed_apply, U.
    + intros nym s0 E. injection E as <- <-. cbn [stSenderPub stRecipTemp stMsgCount]. auto.
  - injection H as <- <-. split; [exact B|]. intros nym s0 E. injection E as <- <-. auto.
Qed.
Lemma blocked_encrypt C fk tk x y n a r st :
  pubKey (idUid (eFrom a)) = Ok fk -> pubKey (eTo a) = Ok tk -> eStatus a <> StatusReset -> blocked C fk tk x y n st ->
  (forall nym w, run (encrypt C a r) st <> (Ok nym, w)) /\ blocked C fk tk x y n (wStore (snd (run (encrypt C a r) st))) /\
  wOut (snd (run (encrypt C a r) st)) = [].
Proof.
  intros F T S B. destruct (run (encrypt C a r) st) as [q w'] eqn:R. cbn [snd].
  assert (Q0 : (forall nym, q <> Ok nym) /\ blocked C fk tk x y n (wStore w') /\ wOut w' = []).
  2:{ destruct Q0 as (Q1 & Q2 & Q3). split; [|auto]. intros nym w E. injection E as E _. exact (Q1 nym E). }
  unfold run, encrypt in R. unfold mbind at 1 in R.
  destruct (encState C a r (mkWorld st [] [])) as [res w1] eqn:E.
  destruct (blocked_encState C fk tk x y n a r (mkWorld st [] []) res w1 F T S B E) as [B1 Q].
  pose proof (traced_out _ _ _ _ _ (traced_encState C a r) E keyOp_out) as O1. cbn [wOut] in O1.
  destruct res as [[nym ss]|e|]; [|injection R as <- <-; split; [discriminate|auto]..].
  destruct (Q nym ss eq_refl) as (X & Y & N0).
  assert (K : exists e, encKey C a ss w1 = (Err e, w1)).
  { destruct (bl_used _ _ _ _ _ _ _ B1) as (s & G & L & Z). eexists.
    unfold encKey. rewrite F, T, X, Y, N0. rewrite !lift_bind.
    erewrite bind_ok by (apply numMessageKeys_get; exact G). cbv beta.
    destruct (N.leb_spec (lenN (sSend s)) n) as [LL|LL]; [unfold lenN in LL; lia|].
    erewrite bind_ok by reflexivity. unfold mbind at 1. unfold getMessageKey, getMessageKeyR, memSession. rewrite G. cbn [rbind].
    rewrite (proj2 (N.leb_gt _ _) LL), Z. reflexivity. }
  destruct K as [e K]. unfold mbind at 1, lift at 1 in R. destruct (encHeader C a r ss) as [hp|e'|]; [|injection R as <- <-; split; [discriminate|auto]..].
  unfold mbind at 1 in R. rewrite K in R. injection R as <- <-. split; [discriminate|auto].
Qed.
(* Whenever Encrypt is stopped between deleting the message key and storing the new counter, every later call for the
   same two parties fails, whatever the contents and random choices, unless a session reset is requested. *)
Theorem C13_blocked_after_crash : forall C a r st nym w fk tk, run (encrypt C a r) st = (Ok nym, w) ->
  pubKey (idUid (eFrom a)) = Ok fk -> pubKey (eTo a) = Ok tk ->
  forall later, Forall (fun ar => pubKey (idUid (eFrom (fst ar))) = Ok fk /\ pubKey (eTo (fst ar)) = Ok tk /\ eStatus (fst ar) <> StatusReset) later ->
  forall pre a2 r2 post, later = pre ++ (a2, r2) :: post ->
  let st2 := fold_left (evStep C) (map (fun ar => EvEncrypt (fst ar) (snd ar)) pre) (crashed st (wTrace w) (length (wTrace w) - 1)) in
  (forall nym2 w2, run (encrypt C a2 r2) st2 <> (Ok nym2, w2)) /\ wOut (snd (run (encrypt C a2 r2) st2)) = [].
Proof.
  intros C a r st nym w fk tk H F T later FL pre a2 r2 post EL st2.
  unfold run in H. apply encrypt_ok in H as (ss & w1 & w2 & hp & sk & mk & body & fp & tp & E).
  pose proof (eo_state _ _ _ _ _ _ _ _ _ _ _ _ _ _ _ E) as ES. pose proof (eo_key _ _ _ _ _ _ _ _ _ _ _ _ _ _ _ E) as EK.
  pose proof (traced_encState C a r (mkWorld st [] [])) as (l1 & T1 & F1). pose proof T1 as T1'. rewrite ES in T1. cbn [snd] in T1.
  pose proof (traced_encKey C a ss w1) as (l2 & T2 & F2). rewrite EK in T2. cbn [snd] in T2.
  assert (T3 : w2 = steps (mkWorld st [] []) (l1 ++ l2)) by (rewrite steps_app, <- T1; exact T2).
  pose proof (encKey_get _ _ _ _ _ _ _ EK) as GK.
  assert (TR : wTrace w = (l1 ++ l2) ++ [OOutput (b64enc (rawMsg C (rHeaderPriv r) hp body)); ODelMsgKey sk true (stMsgCount ss); OSetState (calcStateKey C fp tp) (bumped ss)]).
  { rewrite (eo_end _ _ _ _ _ _ _ _ _ _ _ _ _ _ _ E), T3, <- steps_app, steps_trace. reflexivity. }
  assert (CR : crashed st (wTrace w) (length (wTrace w) - 1) = apply_op (ODelMsgKey sk true (stMsgCount ss)) (wStore w2)).
  { unfold crashed. rewrite TR, app_length. cbn [length]. rewrite firstn_app, firstn_all2 by lia.
    replace (length (l1 ++ l2) + 3 - 1 - length (l1 ++ l2))%nat with 2%nat by lia. cbn [firstn]. rewrite fold_left_app.
    rewrite T3, steps_store. reflexivity. }
  assert (B : blocked C fk tk (stSenderPub ss) (stRecipTemp ss) (stMsgCount ss) (crashed st (wTrace w) (length (wTrace w) - 1))).
  { rewrite CR. constructor.
    - assert (SG : exists f1 t1, pub32 fk = Ok f1 /\ pub32 tk = Ok t1 /\ mget (calcStateKey C f1 t1) (states (wStore w1)) = Some ss).
      { unfold encState in ES. rewrite F, T, !lift_bind in ES. apply mbind_ok in ES as (f1 & x1 & Q1 & ES). unfold lift in Q1. injection Q1 as Q1 <-.
        rewrite lift_bind in ES. apply mbind_ok in ES as (t1 & x2 & Q2 & ES). unfold lift in Q2. injection Q2 as Q2 <-.
        exists f1, t1. split; [exact Q1|]. split; [exact Q2|]. apply mbind_ok in ES as (oss & x3 & Q3 & ES).
        destruct oss as [s0|].
        - assert (G0 : mget (calcStateKey C f1 t1) (states (wStore x3)) = Some s0).
          { destruct (eStatus a =? StatusReset); [discriminate|]. unfold getSessionState, ask in Q3. injection Q3 as Q3 <-. exact Q3. }
          destruct (eStatus a =? StatusError); [injection ES as _ <- <-; exact G0|].
          destruct (stNextSender s0); [injection ES as _ <- <-; exact G0|].
          destruct (rCoin r); [|injection ES as _ <- <-; exact G0].
          unfold setNextSenderSessionPub, addSessionKey in ES. unfold mbind, emit in ES. cbv zeta in ES. cbv iota beta in ES. injection ES as _ <- <-.
          cbn [step_op wStore apply_op states]. apply mget_mset_same.
        - apply mbind_ok in ES as ([rt ny] & x4 & _ & ES). cbv zeta in ES. apply mbind_ok in ES as (u1 & x5 & _ & ES). apply mbind_ok in ES as (u2 & x6 & _ & ES).
          apply mbind_ok in ES as (u3 & x7 & _ & ES). apply mbind_ok in ES as (u4 & x8 & Q4 & ES). rewrite emit_eq in Q4. injection Q4 as _ <-.
          injection ES as _ <- <-. cbn [step_op wStore apply_op states]. apply mget_mset_same. }
      destruct SG as (f1 & t1 & Q1 & Q2 & G). exists f1, t1, ss. split; [exact Q1|]. split; [exact Q2|]. split; [|auto].
      assert (ST : states (apply_op (ODelMsgKey sk true (stMsgCount ss)) (wStore w2)) = states (wStore w2)).
      { cbn [apply_op]. destruct (mget sk (sessions (wStore w2))); reflexivity. }
      rewrite ST.
      assert (ST2 : states (wStore w2) = states (wStore w1)).
      { unfold encKey in EK. rewrite F, T, !lift_bind in EK. apply mbind_ok in EK as (nn & x1 & Q3 & EK). unfold numMessageKeys in Q3. injection Q3 as _ <-.
        apply mbind_ok in EK as (u1 & x2 & Q4 & EK). apply mbind_ok in EK as (m1 & x3 & Q5 & EK). unfold getMessageKey in Q5. injection Q5 as _ <-.
        injection EK as _ _ <-. destruct (nn <=? stMsgCount ss); [|injection Q4 as _ <-; reflexivity].
        apply mbind_ok in Q4 as (ck & x4 & Q6 & Q4). unfold getChainKey in Q6. injection Q6 as _ <-.
        apply mbind_ok in Q4 as (sp & x4 & Q6 & Q4). unfold lift in Q6. injection Q6 as _ <-.
        apply mbind_ok in Q4 as (rp & x4 & Q6 & Q4). unfold lift in Q6. injection Q6 as _ <-.
        match type of Q4 with generateMessageKeys C ?a ?b ?c ?d ?e ?f ?g ?h ?n ?w = _ => destruct (generate_any C a b c d e f g h n w) as (? & ? & ? & ? & ? & G1 & _) end.
        rewrite G1 in Q4. injection Q4 as _ <-. reflexivity. }
      rewrite ST2. exact G.
    - assert (SK : sk = calcKey C (keHash fk) (keHash tk) (keHash (stSenderPub ss)) (keHash (stRecipTemp ss))).
      { unfold encKey in EK. rewrite F, T, !lift_bind in EK. apply mbind_ok in EK as (nn & x1 & Q3 & EK).
        apply mbind_ok in EK as (u1 & x2 & Q4 & EK). apply mbind_ok in EK as (m1 & x3 & Q5 & EK). injection EK as <- _ _. reflexivity. }
      rewrite <- SK. apply (sendUsed_del _ _ _ _ GK). }
  assert (B2 : blocked C fk tk (stSenderPub ss) (stRecipTemp ss) (stMsgCount ss) st2).
  { unfold st2. clear CR TR. subst later. apply Forall_app in FL as [FP _]. revert B. generalize (crashed st (wTrace w) (length (wTrace w) - 1)).
    induction FP as [|[a0 r0] l (P1 & P2 & P3) FP IH]; intros s0 B0; [exact B0|]. cbn [map fold_left]. apply IH. cbn [evStep fst snd].
    apply (blocked_encrypt C fk tk _ _ _ a0 r0 s0 P1 P2 P3 B0). }
  subst later. apply Forall_app in FL as [_ FL]. inversion FL as [|? ? (P1 & P2 & P3) _]; subst.
  destruct (blocked_encrypt C fk tk _ _ _ a2 r2 st2 P1 P2 P3 B2) as (Q1 & _ & Q2). auto.
Qed.
Lemma px_from u e : pxUidOk u e -> pubKey u = Ok (initDHKey toy (hxKey e)).
Proof. intros (_ & U & _). apply (pubKey_cons _ _ [] U). Qed.
Lemma px_to : pubKey hxTo = Ok (initDHKey toy (hxKey 5)).
Proof. reflexivity. Qed.
Opaque toy pxUidA pxState.
Theorem C13_refuted : exists C a r st nym w, run (encrypt C a r) st = (Ok nym, w) /\
  forall c r2 nym2 w2, run (encrypt C (mkEnc (eFrom a) (eTo a) (eNym a) (eKeychain a) (eSigKey a) c (eNumKeys a) 0 (eCleanup a)) r2)
      (crashed st (wTrace w) (length (wTrace w) - 1)) <> (Ok nym2, w2).
Proof.
  assert (L1 : lenN [1] <= 41691) by (vm_compute; discriminate).
  destruct (px_runs pxUidA 2 None [1] px_uidA (or_introl eq_refl) L1) as (w & R & _).
  exists toy, (pxArgs pxUidA 2 None [1]), pxRnd, pxAlice, pxNym, w. split; [exact R|].
  intros c r2. set (a2 := mkEnc _ _ _ _ _ _ _ _ _).
  apply (C13_blocked_after_crash toy _ pxRnd pxAlice pxNym w (initDHKey toy (hxKey 2)) (initDHKey toy (hxKey 5)) R
    (px_from _ _ px_uidA) px_to [(a2, r2)]) with (pre := []) (post := []); [|reflexivity].
  constructor; [|constructor]. cbn [fst]. split; [apply (px_from _ _ px_uidA)|]. split; [apply px_to|]. discriminate.
Qed.
Transparent toy pxUidA pxState.
(* The other side: a recipient stopped between storing the session and storing the session state panics on every
   further message of that session, and so on every redelivery; the store stays as it is. *)
Theorem C13_recipient_panics : forall C ra hp i h v ke rp sp, pubKey (idUid i) = Ok ke -> pub32 ke = Ok rp -> pub32 (hSenderPub h) = Ok sp ->
  mget (calcKey C (keHash ke) (keHash (hSenderPub h)) (hRecipTempHash h) (keHash (hSessPub h))) (sessions (wStore v)) <> None ->
  mget (calcStateKey C rp sp) (states (wStore v)) = None ->
  decState C ra hp i h v = (Panic, v).
Proof.
  intros C ra hp i h v ke rp sp K R S G T. unfold decState. rewrite K. do 4 rewrite ?lift_bind, ?R, ?S.
  erewrite bind_ok by (unfold getSessionState, ask; rewrite T; reflexivity). cbv beta.
  erewrite bind_ok by reflexivity. unfold mhas. destruct (mget _ (sessions (wStore v))); [|congruence]. cbv iota. unfold mbind at 1. reflexivity.
Qed.
Theorem C13_recipient_refuted : exists C ra msg st x w, run (receive C ra msg) st = (Ok x, w) /\
  let st2 := crashed st (wTrace w) 1 in run (receive C ra msg) st2 = (Panic, mkWorld st2 [] []).
Proof.
  destruct px_forged as (p & h & hp & LP & WP & HH & HU & SH & W).
  set (mac := bodyMac toy (pxMk 2) (repeat 2 16) (plain1 [104; 105] None) (plain2 toy [104; 105] None p)).
  assert (LM : lenN mac = 64) by apply hmac512_len. assert (WM : wfb mac) by apply hmac512_wf.
  destruct (px_bob pxUidA 2 None [104; 105] h (mkWorld pxBob [] []) px_uidA (or_introl eq_refl) HH W eq_refl eq_refl eq_refl) as (v1 & E1 & DS & DK).
  assert (WF : wfb (forgedBody toy (pxMk 2) (repeat 2 16) [104; 105] None p mac)) by (apply wfb_forged; try assumption; apply wfbb_spec; reflexivity).
  assert (LC : lenN [104; 105] <= 41691) by (vm_compute; discriminate).
  eexists toy, pxDec, _, pxBob, (hSender h, []), (steps v1 [OOutput [104; 105]; ODelMsgKey (pxSkB 2) false (hMsgCount h)]).
  split.
  { unfold run. rewrite (receive_tail _ _ _ _ _ _ _ _ _ SH WF).
    rewrite (decRest_forged _ _ _ _ _ (pxMk 2) (repeat 2 16) [104; 105] None p mac _ _ _ _ v1 v1 LC eq_refl LP LM DS DK), HU. cbn [rbind sigCheck].
    fold mac. rewrite beq_refl. reflexivity. }
  cbv zeta. unfold run. rewrite (receive_tail _ _ _ _ _ _ _ _ _ SH WF). unfold decRest. unfold mbind at 1.
  pose proof (hdrOf_inv toy (pxArgs pxUidA 2 None [104; 105]) pxRnd pxState h HH W) as (_ & U2 & U3 & U4 & U5 & U6 & _ & U8 & U9 & _).
  cbn [pxArgs eFrom idUid] in U8. rewrite (px_from _ _ px_uidA) in U8. apply Ok_inj in U8.
  rewrite (C13_recipient_panics toy pxDec _ pxBobId h _ (initDHKey toy (hxKey 5)) (dhpub toy (hxKey 5)) (dhpub toy (hxKey 2))).
  - reflexivity.
  - reflexivity.
  - apply initDHKey_pub32.
  - rewrite U8. apply initDHKey_pub32.
  - cbn [wStore]. unfold crashed. rewrite steps_trace, E1, steps_trace. unfold decFirstOps. cbn [wTrace app firstn fold_left].
    rewrite U8, U4, U5. match goal with |- mget ?k _ <> None => change k with (pxSkB 2) end.
    unfold pxSkB. rewrite newSess_get; [discriminate|reflexivity].
  - cbn [wStore]. unfold crashed. rewrite steps_trace, E1, steps_trace. reflexivity.
Qed.
(* What does hold: stopped anywhere up to the output of the message (before the deletion of the message key), a retry
   between the same parties finds its state and message key again, if a state was stored ... *)
Definition sameParties (a b : encArgs) : Prop := eFrom a = eFrom b /\ eTo a = eTo b /\ eNumKeys a = eNumKeys b.
Definition sameSlot (s t : state) : Prop := stSenderPub s = stSenderPub t /\ stRecipTemp s = stRecipTemp t /\ stMsgCount s = stMsgCount t.
Lemma encState_known C a r w fk tk fp tp s0 : pubKey (idUid (eFrom a)) = Ok fk -> pub32 fk = Ok fp -> pubKey (eTo a) = Ok tk -> pub32 tk = Ok tp ->
  eStatus a <> StatusReset -> mget (calcStateKey C fp tp) (states (wStore w)) = Some s0 ->
  exists nym ss l, encState C a r w = (Ok (nym, ss), steps w l) /\ sameSlot ss s0 /\
    (l = [] \/ exists h j p c, l = [OAddSessionKey h j p c; OSetState (calcStateKey C fp tp) ss]).
Proof.
  intros F P1 T P2 S G. unfold encState. rewrite F, T. do 4 rewrite ?lift_bind, ?P1, ?P2.
  replace (eStatus a =? StatusReset) with false by (symmetry; apply N.eqb_neq; exact S).
  erewrite bind_ok by (unfold getSessionState, ask; rewrite G; reflexivity). cbv beta iota.
  destruct (eStatus a =? StatusError); [exists [], s0, []; repeat split; left; reflexivity|].
  destruct (stNextSender s0); [exists (stNym s0), s0, []; repeat split; left; reflexivity|].
  destruct (rCoin r); [|exists (stNym s0), s0, []; repeat split; left; reflexivity].
  unfold setNextSenderSessionPub, addSessionKey. unfold mbind, emit. cbv zeta. cbv iota beta.
  eexists _, _, [_; _]. split; [reflexivity|]. split; [repeat split|]. right. eexists _, _, _, _. reflexivity.
Qed.
Lemma encKey_again C a b ss ss' w v x w2 : sameParties a b -> sameSlot ss' ss -> encKey C a ss w = (Ok x, w2) ->
  sessions (wStore v) = sessions (wStore w) \/ sessions (wStore v) = sessions (wStore w2) -> exists v2, encKey C b ss' v = (Ok x, v2).
Proof.
  intros (A1 & A2 & A3) (S1 & S2 & S3) H V. unfold encKey in *. rewrite <- A1, <- A2, <- A3, S1, S2, S3.
  apply mbind_ok in H as (fk & w0 & Q1 & H). unfold lift in Q1. injection Q1 as Q1 <-.
  apply mbind_ok in H as (tk & w0 & Q2 & H). unfold lift in Q2. injection Q2 as Q2 <-.
  rewrite Q1, lift_bind, Q2, lift_bind. set (sk := calcKey _ _ _ _ _) in *.
  apply mbind_ok in H as (n & w0 & Q3 & H). unfold numMessageKeys in Q3. injection Q3 as Q3 <-.
  apply mbind_ok in H as (u & w3 & Q4 & H). apply mbind_ok in H as (mk & w4 & Q5 & H). unfold getMessageKey in Q5. injection Q5 as Q5 <-.
  injection H as <- <-. destruct V as [V|V].
  - (* the sessions are as they were *)
    erewrite bind_ok by (unfold numMessageKeys, memSession in *; rewrite V, Q3; reflexivity). cbv beta.
    destruct (n <=? stMsgCount ss).
    + apply mbind_ok in Q4 as (ck & w5 & Q6 & Q4). unfold getChainKey in Q6. injection Q6 as Q6 <-.
      apply mbind_ok in Q4 as (sp & w5 & Q7 & Q4). unfold lift in Q7. injection Q7 as Q7 <-.
      apply mbind_ok in Q4 as (rp & w5 & Q8 & Q4). unfold lift in Q8. injection Q8 as Q8 <-.
      assert (E : exists v3, (dom chainKey <- getChainKey sk; dom sp <- lift (pub32 (stSenderPub ss)); dom rp <- lift (pub32 (stRecipTemp ss));
          generateMessageKeys C (uIdentity (idUid (eFrom a))) (uIdentity (eTo a)) (keHash fk) (keHash tk) chainKey false sp rp (numKeys (eNumKeys a))) v = (Ok tt, v3) /\
          sessions (wStore v3) = sessions (wStore w3)).
      { erewrite bind_ok by (unfold getChainKey, memSession in *; rewrite V, Q6; reflexivity). cbv beta. rewrite Q7, lift_bind, Q8, lift_bind.
        unfold generateMessageKeys in *. destruct (keyLoop _ _ _ _ _ _) as [[k1 k2] k3]. unfold storeSession in *.
        match type of Q4 with (if ?b then _ else _) _ = _ => destruct b end; [discriminate|].
        rewrite emit_eq in *. injection Q4 as _ <-. eexists. split; [reflexivity|]. cbn [step_op wStore apply_op sessions]. rewrite V. reflexivity. }
      destruct E as (v3 & E & VS). erewrite bind_ok by exact E. eexists.
      erewrite bind_ok by (unfold getMessageKey, getMessageKeyR, memSession in *; rewrite VS, Q5; reflexivity). reflexivity.
    + injection Q4 as _ <-. erewrite bind_ok by reflexivity. eexists.
      erewrite bind_ok by (unfold getMessageKey, getMessageKeyR, memSession in *; rewrite V, Q5; reflexivity). reflexivity.
  - (* they have been extended already *)
    assert (N2 : exists m, memSession sk (wStore w3) = Ok m /\ lenN (sSend m) <=? stMsgCount ss = false).
    { unfold getMessageKeyR in Q5. apply rbind_ok in Q5 as (m & M1 & Q5). exists m. split; [exact M1|].
      destruct (lenN (sSend m) <=? stMsgCount ss); [discriminate|reflexivity]. }
    destruct N2 as (m & M1 & M2).
    erewrite bind_ok by (unfold numMessageKeys, memSession in *; rewrite V, M1; reflexivity). cbv beta. rewrite M2.
    erewrite bind_ok by reflexivity. eexists.
    erewrite bind_ok by (unfold getMessageKey, getMessageKeyR, memSession in *; rewrite V, Q5; reflexivity). reflexivity.
Qed.
Lemma apply_add_states h j p c st : states (apply_op (OAddSessionKey h j p c) st) = states st. Proof. reflexivity. Qed.
Theorem C13_retry_partial : forall C a r st nym w fk tk fp tp s0, run (encrypt C a r) st = (Ok nym, w) ->
  pubKey (idUid (eFrom a)) = Ok fk -> pub32 fk = Ok fp -> pubKey (eTo a) = Ok tk -> pub32 tk = Ok tp -> eStatus a <> StatusReset ->
  mget (calcStateKey C fp tp) (states st) = Some s0 ->
  forall k a2 r2, (k <= length (wTrace w) - 2)%nat -> sameParties a a2 -> eStatus a2 <> StatusReset ->
  let st2 := crashed st (wTrace w) k in
  exists nym2 ss2 w1 sk mk w2, encState C a2 r2 (mkWorld st2 [] []) = (Ok (nym2, ss2), w1) /\ encKey C a2 ss2 w1 = (Ok (sk, mk), w2).
Proof.
  intros C a r st nym w fk tk fp tp s0 H F P1 T P2 S G k a2 r2 Hk SP S2 st2.
  unfold run in H. apply encrypt_ok in H as (ss & w1 & w2 & hp & sk & mk & body & fp' & tp' & E).
  pose proof (eo_state _ _ _ _ _ _ _ _ _ _ _ _ _ _ _ E) as ES. pose proof (eo_key _ _ _ _ _ _ _ _ _ _ _ _ _ _ _ E) as EK.
  destruct (encState_known C a r (mkWorld st [] []) fk tk fp tp s0 F P1 T P2 S G) as (nym' & ss' & l1 & ES' & SS & L1).
  rewrite ES' in ES. apply okpair_inj in ES as (_ & <- & T1). symmetry in T1.
  pose proof (traced_encKey C a ss' w1) as (l2 & T2 & F2). rewrite EK in T2. cbn [snd] in T2.
  assert (T3 : w2 = steps (mkWorld st [] []) (l1 ++ l2)) by (rewrite steps_app, <- T1; exact T2).
  assert (L2 : l2 = [] \/ exists k rh ck sd rv, l2 = [OStoreSession k rh ck sd rv]).
  { clear - EK T2. pose proof EK as Q. unfold encKey in Q. apply mbind_ok in Q as (fk & x0 & Q1 & Q). unfold lift in Q1. injection Q1 as _ <-.
    apply mbind_ok in Q as (tk & x0 & Q1 & Q). unfold lift in Q1. injection Q1 as _ <-. apply mbind_ok in Q as (n & x0 & Q1 & Q). unfold numMessageKeys in Q1. injection Q1 as _ <-.
    apply mbind_ok in Q as (u & x3 & Q4 & Q). apply mbind_ok in Q as (m & x4 & Q5 & Q). unfold getMessageKey in Q5. injection Q5 as _ <-. injection Q as _ _ <-.
    assert (TT : wTrace x3 = wTrace w1 ++ l2) by (rewrite T2; apply steps_trace).
    destruct (n <=? stMsgCount ss').
    - right. apply mbind_ok in Q4 as (ck & x4 & Q6 & Q4). unfold getChainKey in Q6. injection Q6 as _ <-.
      apply mbind_ok in Q4 as (sp & x4 & Q6 & Q4). unfold lift in Q6. injection Q6 as _ <-.
      apply mbind_ok in Q4 as (rp & x4 & Q6 & Q4). unfold lift in Q6. injection Q6 as _ <-.
      match type of Q4 with generateMessageKeys C ?a ?b ?c ?d ?e ?f ?g ?h ?n ?w = _ => destruct (generate_any C a b c d e f g h n w) as (k1 & k2 & k3 & k4 & k5 & G1 & _) end.
      rewrite G1 in Q4. injection Q4 as _ <-. cbn [step_op wTrace] in TT. apply app_inv_head in TT. exists k1, k2, k3, k4, k5. symmetry. exact TT.
    - left. injection Q4 as _ <-. rewrite <- (app_nil_r (wTrace w1)) in TT at 1. apply app_inv_head in TT. symmetry. exact TT. }
  assert (TR : wTrace w = (l1 ++ l2) ++ [OOutput (b64enc (rawMsg C (rHeaderPriv r) hp body)); ODelMsgKey sk true (stMsgCount ss'); OSetState (calcStateKey C fp' tp') (bumped ss')]).
  { rewrite (eo_end _ _ _ _ _ _ _ _ _ _ _ _ _ _ _ E), T3, <- steps_app, steps_trace. reflexivity. }
  (* the state and the sessions after the crash *)
  assert (W1 : sessions (wStore w1) = sessions st).
  { rewrite T1, steps_store. destruct L1 as [->|(h0 & j0 & p0 & c0 & ->)]; reflexivity. }
  assert (ST : (exists s2, mget (calcStateKey C fp tp) (states st2) = Some s2 /\ sameSlot ss' s2) /\
               (sessions st2 = sessions (wStore w1) \/ sessions st2 = sessions (wStore w2))).
  { assert (FO : forall l, Forall (fun o => match o with OSetState _ _ | OAddSessionKey _ _ _ _ | ODelPriv _ | ODelMsgKey _ _ _ => False | _ => True end) l ->
                 forall s, states (fold_left (fun s o => apply_op o s) l s) = states s).
    { induction 1 as [|o l Ho Fo IH]; intros s; [reflexivity|]. cbn [fold_left]. rewrite IH. destruct o; try contradiction; reflexivity. }
    unfold st2, crashed. rewrite TR.
    destruct L1 as [->|(h0 & j0 & p0 & c0 & ->)].
    - cbn [app]. cbn [app] in TR, T3. split.
      + exists s0. split; [|exact SS]. rewrite FO; [exact G|]. apply Forall_forall. intros o Io.
        assert (Hk2 : (k <= length l2 + 1)%nat) by (rewrite TR, app_length in Hk; cbn [length] in Hk; lia).
        rewrite firstn_app in Io. apply in_app_or in Io as [Io|Io].
        * assert (Io2 : In o l2) by (rewrite <- (firstn_skipn k l2); apply in_or_app; left; exact Io).
          destruct L2 as [->|(k1 & k2 & k3 & k4 & k5 & ->)]; [destruct Io2|]. destruct Io2 as [<-|[]]. exact I.
        * destruct (k - length l2)%nat as [|[|q]] eqn:Q; [destruct Io| |lia]. cbn [firstn] in Io. destruct Io as [<-|[]]. exact I.
      + assert (Hk2 : (k <= length l2 + 1)%nat) by (rewrite TR, app_length in Hk; cbn [length] in Hk; lia).
        rewrite W1, T3, steps_store. cbn [wStore].
        destruct L2 as [->|(k1 & k2 & k3 & k4 & k5 & ->)]; cbn [length app] in *.
        * left. destruct k as [|[|k]]; [reflexivity|reflexivity|lia].
        * destruct k as [|[|[|k]]]; [left; reflexivity|right; reflexivity|right; reflexivity|lia].
    - cbn [app]. cbn [app] in TR, T3.
      assert (Hk2 : (k <= length l2 + 3)%nat) by (rewrite TR in Hk; cbn [length] in Hk; rewrite app_length in Hk; cbn [length] in Hk; lia).
      split.
      + destruct k as [|[|k]]; [exists s0; auto|exists s0; auto|]. cbn [firstn fold_left]. exists ss'. split; [|repeat split].
        rewrite FO; [apply mget_mset_same|]. apply Forall_forall. intros o Io.
        rewrite firstn_app in Io. apply in_app_or in Io as [Io|Io].
        * assert (Io2 : In o l2) by (rewrite <- (firstn_skipn k l2); apply in_or_app; left; exact Io).
          destruct L2 as [->|(k1 & k2 & k3 & k4 & k5 & ->)]; [destruct Io2|]. destruct Io2 as [<-|[]]. exact I.
        * destruct (k - length l2)%nat as [|[|q]] eqn:Q; [destruct Io| |lia]. cbn [firstn] in Io. destruct Io as [<-|[]]. exact I.
      + rewrite W1, T3, steps_store. cbn [wStore].
        destruct L2 as [->|(k1 & k2 & k3 & k4 & k5 & ->)]; cbn [length app] in *.
        * left. destruct k as [|[|[|[|k]]]]; try reflexivity. lia.
        * destruct k as [|[|[|[|[|k]]]]]; [left; reflexivity|left; reflexivity|left; reflexivity|right; reflexivity|right; reflexivity|lia]. }
  destruct ST as [(s2 & G2 & SS2) SE]. pose proof SP as (A1 & A2 & A3).
  destruct (encState_known C a2 r2 (mkWorld st2 [] []) fk tk fp tp s2) as (nym2 & ss2 & l & E2 & SS3 & L3); try assumption; [rewrite <- A1; assumption|rewrite <- A2; assumption|].
  destruct (encKey_again C a a2 ss' ss2 w1 (steps (mkWorld st2 [] []) l) (sk, mk) w2 SP) as [v2 EK2].
  - destruct SS3 as (X1 & X2 & X3), SS2 as (Y1 & Y2 & Y3). repeat split; congruence.
  - exact EK.
  - rewrite steps_store. cbn [wStore]. destruct L3 as [->|(h0 & j0 & p0 & c0 & ->)]; cbn [fold_left]; exact SE.
  - exists nym2, ss2, (steps (mkWorld st2 [] []) l), sk, mk, v2. split; [exact E2|exact EK2].
Qed.
(* ... and on first contact the conversation can be started anew as long as no state was stored. *)
Theorem C13_restart_partial : forall C a r st sa sb kb nym, firstEnc C a r st sa sb kb nym ->
  exists ss w1 sk mk w2, encState C a r (mkWorld st [] []) = (Ok (nym, ss), w1) /\ encKey C a ss w1 = (Ok (sk, mk), w2).
Proof.
  intros C a r st sa sb kb nym FE. pose proof (encState_first C a r (mkWorld st [] []) sa sb kb nym FE) as E.
  destruct FE as [[ks F] P [ks' T] S K NS V Hn]. eexists _, _, _, _, _. split; [exact E|].
  set (fx := identityFix C (uIdentity (idUid (eFrom a))) (uIdentity (eTo a))).
  apply (encKey_at C a (ssFirst C (rSessPriv r) kb nym) _ sa sb (rSessPriv r) kb
           (sessAfter C (rSessPriv r) kb fx (rootOf C sa (rSessPriv r) sb kb None) (numKeys (eNumKeys a))) (rootOf C sa (rSessPriv r) sb kb None)
           (N.to_nat (numKeys (eNumKeys a))) ks ks' F T eq_refl eq_refl).
  - unfold encFirstOps. cbn [steps fold_left step_op wStore]. cbn [apply_op addKey sessions].
    apply newSess_get. exact NS.
  - apply sessAfter_ok.
  - cbn [ssFirst stMsgCount]. lia.
  - cbn [ssFirst stMsgCount sessAfter sSend]. apply keysFor_ne. lia.
Qed.
Lemma C13_restart_states : forall C a r st sa sb kb nym, firstEnc C a r st sa sb kb nym -> eStatus a <> StatusReset ->
  forall k, (k <= 2)%nat -> mget (calcStateKey C (dhpub C sa) (dhpub C sb)) (states (crashed st (encFirstOps C a r sa sb kb nym) k)) = None.
Proof.
  intros C a r st sa sb kb nym FE S k Hk. destruct (fe_state _ _ _ _ _ _ _ _ FE) as [Q|Q]; [contradiction|].
  destruct k as [|[|[|k]]]; [exact Q|exact Q|exact Q|lia].
Qed.
Opaque toy pxUidA pxState.
Example C13_retry_case : exists w s0, run (encrypt toy (pxArgs pxUidA 2 None [1]) pxRnd) pxAlice = (Ok pxNym, w) /\
  mget (calcStateKey toy (dhpub toy (hxKey 2)) (dhpub toy (hxKey 5))) (states (crashed pxAlice (wTrace w) 4)) = Some s0.
Proof.
  assert (L1 : lenN [1] <= 41691) by (vm_compute; discriminate).
  destruct (px_runs pxUidA 2 None [1] px_uidA (or_introl eq_refl) L1) as (w & R & _). exists w, pxState. split; [exact R|].
  unfold run in R. apply encrypt_ok in R as (ss & w1 & w2 & hp & sk & mk & body & fk & tk & E).
  pose proof (eo_state _ _ _ _ _ _ _ _ _ _ _ _ _ _ _ E) as ES. rewrite (px_state pxUidA 2 None [1] px_uidA (or_introl eq_refl)) in ES. apply okpair_inj in ES as (_ & <- & <-).
  pose proof (eo_key _ _ _ _ _ _ _ _ _ _ _ _ _ _ _ E) as EK. rewrite (px_key pxUidA 2 None [1] _ px_uidA (px_sess pxUidA 2 None [1] px_uidA)) in EK. apply okpair_inj in EK as (<- & <- & <-).
  rewrite (eo_end _ _ _ _ _ _ _ _ _ _ _ _ _ _ _ E), <- steps_app, steps_trace.
  unfold crashed, pxOps, encFirstOps. cbn [wTrace app firstn fold_left apply_op states].
  apply mget_mset_same.
Qed.
Transparent toy pxUidA pxState.

(* ------------------------------ C73 ------------------------------- *)
(* Two different key pairs, one sender identity: bob accepts both messages, signed, as coming from alice. *)
Theorem C73_refuted : exists C ra st u1 u2 m1 m2 s1 s2 v1 v2 id, uIdentity u1 = id /\ uIdentity u2 = id /\ uSigKey u1 <> uSigKey u2 /\ uPubKeys u1 <> uPubKeys u2 /\
  run (receive C ra m1) st = (Ok (id, s1), v1) /\ s1 <> [] /\ wOut v1 = [1] /\
  run (receive C ra m2) st = (Ok (id, s2), v2) /\ s2 <> [] /\ wOut v2 = [2].
Proof.
  assert (L1 : lenN [1] <= 41691) by (vm_compute; discriminate). assert (L2 : lenN [2] <= 41691) by (vm_compute; discriminate).
  assert (W1 : wfb [1]) by (apply wfbb_spec; reflexivity). assert (W2 : wfb [2]) by (apply wfbb_spec; reflexivity).
  destruct (px_runs pxUidA 2 (Some (hxKey 1)) [1] px_uidA (or_introl eq_refl) L1) as (w1 & R1 & _).
  destruct (px_received pxUidA 2 _ [1] w1 px_uidA (or_introl eq_refl) W1 px_sigA R1) as (s1 & v1 & Q1 & O1 & S1).
  destruct (px_runs pxUidE 22 (Some (hxKey 21)) [2] px_uidE (or_intror eq_refl) L2) as (w2 & R2 & _).
  destruct (px_received pxUidE 22 _ [2] w2 px_uidE (or_intror eq_refl) W2 px_sigE R2) as (s2 & v2 & Q2 & O2 & S2).
  exists toy, pxDec, pxBob, pxUidA, pxUidE, (wOut w1), (wOut w2), s1, s2, v1, v2, (str "alice@mute.berlin").
  split; [reflexivity|]. split; [reflexivity|]. split; [vm_compute; discriminate|]. split; [vm_compute; discriminate|].
  split; [exact Q1|]. split; [intros Z; apply S1 in Z; discriminate|]. split; [exact O1|].
  split; [exact Q2|]. split; [intros Z; apply S2 in Z; discriminate|exact O2].
Qed.
(* What does hold of signed messages: the signature verifies under the key that the message itself carries. *)
Theorem C73_signature_partial : forall C ra msg st id sig v, run (receive C ra msg) st = (Ok (id, sig), v) -> sig <> [] ->
  exists raw ver pre s hp i h s1 u sp sg, b64dec msg = Some raw /\ ReadFirstOuterHeader raw = Ok (ver, pre, s) /\
    decHeader C (dIds ra) pre s = Ok (hp, i, h, s1) /\ id = hSender h /\ newJSONUid (hUID h) = Ok u /\ pub32 (uSigKey u) = Ok sp /\
    sig = b64enc sg /\ edverify C sp (sha512 C (wOut v)) sg = true.
Proof.
  intros C ra msg st id sig v H NS. unfold run, receive in H. destruct (b64dec msg) as [raw|] eqn:B; [|discriminate].
  apply mbind_ok in H as ([[ver pre] s] & v0 & E0 & H). unfold lift in E0. injection E0 as E0 <-.
  destruct (negb (ver =? Version)); [discriminate|].
  unfold decrypt in H. apply mbind_ok in H as ([[[hp i] h] s1] & v1 & E1 & H). unfold lift in E1. injection E1 as E1 <-.
  apply mbind_ok in H as ([[ke sk] oss] & v2 & E2 & H). apply mbind_ok in H as (mk & v3 & E3 & H).
  apply mbind_ok in H as ([[[o2 o3] ih] s2] & v4 & E4 & H). unfold lift in E4. injection E4 as E4 <-.
  apply mbind_ok in H as (u & v5 & E5 & H). rewrite emit_eq in E5. injection E5 as _ <-.
  apply mbind_ok in H as (sg & v6 & E6 & H). unfold lift in E6. injection E6 as E6 <-.
  apply mbind_ok in H as (u2 & v7 & E7 & H). apply delMessageKey_ok in E7. subst v7. unfold mret in H. injection H as <- <- <-.
  assert (O : wOut (step_op (step_op v3 (OOutput (iContent ih))) (ODelMsgKey sk false (hMsgCount h))) = iContent ih).
  { cbn [step_op wOut out_of]. rewrite app_nil_r.
    rewrite (traced_out _ _ _ _ _ (traced_decKey C i ke h sk oss _) E3 keyOp_out), (traced_out _ _ _ _ _ (traced_decState C ra _ i h) E2 decOp_out). reflexivity. }
  rewrite O. unfold openRest in E6. rewrite derive_eq in E6. apply rbind_ok in E6 as ([o4 t4] & _ & E6).
  apply rbind_ok in E6 as ([ih2 x2] & _ & E6). apply rbind_ok in E6 as (x3 & _ & E6). apply rbind_ok in E6 as (uu & EU & E6).
  apply rbind_ok in E6 as (sg' & ESG & E6). apply rbind_ok in E6 as ([o5 t5] & _ & E6). destruct (beq _ (oInner o5)) in E6; [|discriminate]. apply Ok_inj in E6. subst sg'.
  destruct (negb (N.land (iType ih) signType =? 0)); [|apply Ok_inj in ESG; congruence].
  apply rbind_ok in ESG as (sp & EP & ESG). destruct (edverify C sp (sha512 C (iContent ih)) (iContent ih2)) eqn:EV; [|discriminate]. apply Ok_inj in ESG.
  exists raw, ver, pre, s, hp, i, h, s1, uu, sp, (iContent ih2). repeat split; try assumption. symmetry. exact ESG.
Qed.

(* ------------------------------ C74 ------------------------------- *)
(* A signed message whose header carries a UID message with an unusable signature key makes the receiver panic. *)
Theorem C74_refuted : exists C ra msg st v, run (receive C ra msg) st = (Panic, v).
Proof.
  assert (Wc : wfb [104; 105]) by (apply wfbb_spec; reflexivity). assert (LC : lenN [104; 105] <= 41691) by (vm_compute; discriminate).
  pose proof (px_wf pxUidP 2 None [104; 105] px_uidP Wc (no_sig _)) as W.
  destruct (px_header pxUidP 2 None [104; 105] px_uidP) as (h & hp & HH & HP & P & LH).
  pose proof (px_sealed pxUidP 2 None [104; 105] h hp px_uidP Wc HH P LH W) as SH.
  destruct (px_bob pxUidP 2 None [104; 105] h (mkWorld pxBob [] []) px_uidP (or_introl eq_refl) HH W eq_refl eq_refl eq_refl) as (v1 & E1 & DS & DK).
  pose proof (hdrOf_inv _ _ _ _ _ HH W) as (U1 & _).
  set (p := repeat 0 (N.to_nat (padLen [104; 105] (Some (hxKey 1))))).
  assert (LP : lenN p = padLen [104; 105] (Some (hxKey 1))) by (unfold lenN, p; rewrite repeat_length; apply N2Nat.id).
  assert (WP : wfb p) by (apply wfb_repeat; lia).
  set (mac := repeat 0 64).
  assert (WF : wfb (forgedBody toy (pxMk 2) (repeat 2 16) [104; 105] (Some (hxKey 1)) p mac)) by (apply wfb_forged; try assumption; apply wfbb_spec; reflexivity).
  eexists toy, pxDec, _, pxBob, (steps v1 [OOutput [104; 105]]). unfold run. rewrite (receive_tail _ _ _ _ _ _ _ _ _ SH WF).
  rewrite (decRest_forged _ _ _ _ _ (pxMk 2) (repeat 2 16) [104; 105] (Some (hxKey 1)) p mac _ _ _ _ v1 v1 LC eq_refl LP eq_refl DS DK).
  rewrite U1. cbn [pxArgs eFrom idUid]. rewrite newJSONUid_JSON by apply (ew_uid _ _ _ _ W). cbn [rbind]. unfold sigCheck.
  replace (pub32 (uSigKey pxUidP)) with (@Panic bytes) by (vm_compute; reflexivity). reflexivity.
Qed.
(* What does hold: with usable identity keys, a message that nobody's key opens is an error, never a panic. *)
Definition usable (i : ident) : Prop := exists ke p pr, pubKey (idUid i) = Ok ke /\ pub32 ke = Ok p /\ priv32 ke (idEncPriv i) = Ok pr.
Lemma np_bind {A B} (m : res A) (f : A -> res B) : m <> Panic -> (forall x, m = Ok x -> f x <> Panic) -> rbind m f <> Panic.
Proof. intros H1 H2. destruct m; cbn [rbind]; [apply H2; reflexivity|discriminate|congruence]. Qed.
Lemma np_rd n s : rd n s <> Panic. Proof. unfold rd. destruct (read_full n s); discriminate. Qed.
Lemma np_rd_be n s : rd_be n s <> Panic. Proof. unfold rd_be. apply np_bind; [apply np_rd|intros []; discriminate]. Qed.
Ltac np := repeat first [ discriminate | apply np_rd | apply np_rd_be | apply np_bind; [|intros ? ?] | progress (cbv beta iota) | match goal with |- (let (_, _) := ?x in _) <> _ => destruct x | |- (if ?b then _ else _) <> _ => destruct b | |- match ?x with _ => _ end <> _ => destruct x end ].
Lemma np_tryOpen C ids box nonce hp : Forall usable ids -> tryOpen C ids box nonce hp <> Panic.
Proof.
  induction 1 as [|i ids (ke & p & pr & U1 & U2 & U3) F IH]; cbn [tryOpen]; [discriminate|]. rewrite U1. cbn [rbind]. rewrite U2. cbn [rbind]. rewrite U3. cbn [rbind].
  destruct (boxopen C box nonce hp pr); [discriminate|exact IH].
Qed.
Lemma np_keVerify C k : keVerify C k <> Panic.
Proof. unfold keVerify. np. Qed.
Lemma np_headerVerify C h : headerVerify C h <> Panic.
Proof.
  assert (V : forall k e, verifyDH C k e <> Panic) by (intros; unfold verifyDH; apply np_bind; [apply np_keVerify|intros; np]).
  unfold headerVerify, verifyOpt. apply np_bind; [apply V|intros]. apply np_bind; [apply V|intros]. apply np_bind; [|intros]; match goal with |- match ?o with _ => _ end <> _ => destruct o; [apply V|discriminate] end.
Qed.
Lemma np_decHeader C ids pre s : Forall usable ids -> decHeader C ids pre s <> Panic.
Proof.
  intros U. unfold decHeader. apply np_bind; [unfold readPreHeader; np|intros [ph x] _]. destruct (negb _); [discriminate|].
  apply np_bind; [unfold packet, readOuterHeader; np|intros [o s'] _]. apply np_bind; [|intros [i h] _; discriminate].
  unfold readHeader. apply np_bind; [apply np_rd|intros [n s1] _]. apply np_bind; [apply np_rd_be|intros [l s2] _]. apply np_bind; [apply np_rd|intros [b s3] _].
  apply np_bind; [apply np_tryOpen, U|intros [i j] _]. destruct (jparse j); [|discriminate]. destruct (headerOfJson j0); [|discriminate].
  apply np_bind; [apply np_headerVerify|discriminate].
Qed.
Theorem C74_unopened_no_panic_partial : forall C ra msg st res v, Forall usable (dIds ra) -> run (receive C ra msg) st = (res, v) ->
  (forall raw ver pre s, b64dec msg = Some raw -> ReadFirstOuterHeader raw = Ok (ver, pre, s) -> forall x, decHeader C (dIds ra) pre s <> Ok x) ->
  exists e, res = Err e /\ v = mkWorld st [] [].
Proof.
  intros C ra msg st res v U H NH. unfold run, receive in H. destruct (b64dec msg) as [raw|]; [|injection H as <- <-; eexists; split; reflexivity].
  specialize (NH raw). unfold mbind at 1, lift at 1 in H.
  assert (NP : ReadFirstOuterHeader raw <> Panic) by (unfold ReadFirstOuterHeader; np).
  destruct (ReadFirstOuterHeader raw) as [[[ver pre] s]|e|]; [|injection H as <- <-; eexists; split; reflexivity|congruence].
  specialize (NH ver pre s eq_refl eq_refl). destruct (negb (ver =? Version)); [injection H as <- <-; eexists; split; reflexivity|].
  unfold decrypt in H. unfold mbind at 1, lift at 1 in H. pose proof (np_decHeader C (dIds ra) pre s U) as ND.
  destruct (decHeader C (dIds ra) pre s) as [x|e|]; [destruct (NH x eq_refl)|injection H as <- <-; eexists; split; reflexivity|congruence].
Qed.
Example C74_unopened_case : Forall usable (dIds pxDec) /\ run (receive toy pxDec (str "garbage!")) pxBob = (Err "base64", mkWorld pxBob [] []).
Proof.
  split; [|reflexivity]. constructor; [|constructor]. exists (initDHKey toy (hxKey 5)), (dhpub toy (hxKey 5)), (hxKey 5).
  split; [reflexivity|]. split; [apply initDHKey_pub32|reflexivity].
Qed.

Print Assumptions C10_refuted.
Print Assumptions C10_success_authenticated_partial.
Print Assumptions C11_refuted.
Print Assumptions C11_no_key_consumed_partial.
Print Assumptions C11_unopened_unchanged_partial.
Print Assumptions C11_unknown_session_unchanged_partial.
Print Assumptions C12_refuted.
Print Assumptions C12_outside_window_partial.
Print Assumptions C13_blocked_after_crash.
Print Assumptions C13_refuted.
Print Assumptions C13_recipient_refuted.
Print Assumptions C13_retry_partial.
Print Assumptions C13_restart_partial.
Print Assumptions C73_refuted.
Print Assumptions C73_signature_partial.
Print Assumptions C74_refuted.
Print Assumptions C74_unopened_no_panic_partial.
