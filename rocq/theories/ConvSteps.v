(* Encrypt and Decrypt inside a conversation, case by case: which operations they perform on the store. *)
From Verif Require Import Base Base64Model Base64Proofs CodecModel CodecProofs JsonModel JsonProofs Maps CryptoModel StoreModel KeysModel KeysProofs MsgFormatModel MsgFormatProofs HeaderModel HeaderProofs KeyDBProofs ProtoModel ProtoProofs ProtoFirst.
Local Open Scope N_scope.

Definition ap (l : list op) (st : store) : store := fold_left (fun s o => apply_op o s) l st.
Lemma steps_ap w l : wStore (steps w l) = ap l (wStore w).
Proof. apply steps_store. Qed.
Lemma ap_app a b st : ap (a ++ b) st = ap b (ap a st).
Proof. apply fold_left_app. Qed.

(* ---- more keys for a session that has n of them ---- *)
Definition refillOp (C : Crypto) (sk root own peer fix_ : bytes) (n m : nat) : op :=
  OStoreSession sk (b64enc (sha512 C (chainAt C root n))) (b64enc (chainAt C (chainAt C root n) m))
    (keysFor C (chainAt C root n) peer fix_ m) (keysFor C (chainAt C root n) own fix_ m).
Definition refilled (C : Crypto) (root own peer fix_ : bytes) (n m : nat) (s : sess) : sess :=
  mkSess (sRoot s) (b64enc (chainAt C (chainAt C root n) m)) (sSend s ++ keysFor C (chainAt C root n) peer fix_ m)
    (sRecv s ++ keysFor C (chainAt C root n) own fix_ m).
Lemma refill_get C sk root own peer fix_ n m s st : mget sk (sessions st) = Some s ->
  mget sk (sessions (apply_op (refillOp C sk root own peer fix_ n m) st)) = Some (refilled C root own peer fix_ n m s).
Proof. intros H. unfold refillOp. rewrite apply_store_session, H. reflexivity. Qed.
Lemma refilled_new C root own peer fix_ rh n m s i : sessOk C root own peer fix_ rh n s -> (n <= i < n + m)%nat ->
  nth i (sSend (refilled C root own peer fix_ n m s)) [] <> [] /\ nth i (sRecv (refilled C root own peer fix_ n m s)) [] <> [].
Proof.
  intros O H. pose proof (so_slen _ _ _ _ _ _ _ _ O) as L1. pose proof (so_rlen _ _ _ _ _ _ _ _ O) as L2. cbn [refilled sSend sRecv].
  rewrite !app_nth2 by lia. rewrite !keysFor_nth by lia. split; apply msgKeyText_nonnil.
Qed.
Lemma refilled_old C root own peer fix_ rh n m s i : sessOk C root own peer fix_ rh n s -> (i < n)%nat ->
  nth i (sSend (refilled C root own peer fix_ n m s)) [] = nth i (sSend s) [] /\ nth i (sRecv (refilled C root own peer fix_ n m s)) [] = nth i (sRecv s) [].
Proof.
  intros O H. pose proof (so_slen _ _ _ _ _ _ _ _ O) as L1. pose proof (so_rlen _ _ _ _ _ _ _ _ O) as L2. cbn [refilled sSend sRecv].
  rewrite !app_nth1 by lia. auto.
Qed.
Lemma refilled_ok C root own peer fix_ rh n m s : sessOk C root own peer fix_ rh n s ->
  sessOk C root own peer fix_ rh (n + m) (refilled C root own peer fix_ n m s).
Proof. apply sessOk_extend. Qed.
Lemma getChainKey_ok C sk w s root own peer fix_ rh n : mget sk (sessions (wStore w)) = Some s -> sessOk C root own peer fix_ rh n s ->
  lenN root = 32 -> wfb root -> getChainKey sk w = (Ok (chainAt C root n), w).
Proof.
  intros G O L W. unfold getChainKey, memSession. rewrite G. cbn [rbind]. rewrite (so_chain _ _ _ _ _ _ _ _ O).
  rewrite decode_fixed_enc by (try apply chainAt_wf; try apply chainAt_len; assumption). reflexivity.
Qed.
Lemma getRootKeyHash_ok C sk w s root own peer fix_ n : mget sk (sessions (wStore w)) = Some s -> sessOk C root own peer fix_ (b64enc (sha512 C root)) n s ->
  getRootKeyHash sk w = (Ok (sha512 C root), w).
Proof.
  intros G O. unfold getRootKeyHash, memSession. rewrite G. cbn [rbind]. rewrite (so_root _ _ _ _ _ _ _ _ O).
  rewrite decode_fixed_enc by (try apply sha512_wf; apply sha512_len). reflexivity.
Qed.

(* ---- Encrypt ---- *)
Definition withNext (ss : state) (k : keyEntry) : state :=
  mkState (stSessCount ss) (stMsgCount ss) (stMaxRecv ss) (stRecipTemp ss) (stSenderPub ss) (Some k) (stNextSeen ss) (stNym ss) (stKeyInit ss).
Definition proposes (a : encArgs) (r : encRnd) (ss : state) : bool :=
  negb (eStatus a =? StatusError) && rCoin r && match stNextSender ss with None => true | Some _ => false end.
Lemma encState_cont C a r w sa sb ss ks ks' :
  uPubKeys (idUid (eFrom a)) = initDHKey C sa :: ks -> uPubKeys (eTo a) = initDHKey C sb :: ks' -> eStatus a <> StatusReset ->
  let key := calcStateKey C (dhpub C sa) (dhpub C sb) in
  mget key (states (wStore w)) = Some ss ->
  exists nym, encState C a r w =
    if proposes a r ss then (Ok (nym, withNext ss (initDHKey C (rSessPriv r))),
                             steps w [addKey C (rSessPriv r) (eCleanup a); OSetState key (withNext ss (initDHKey C (rSessPriv r)))])
    else (Ok (nym, ss), w).
Proof.
  intros F T S key G. unfold encState. rewrite (pubKey_cons _ _ _ F), (pubKey_cons _ _ _ T). do 4 rewrite ?lift_bind, ?initDHKey_pub32.
  replace (eStatus a =? StatusReset) with false by (symmetry; apply N.eqb_neq; exact S).
  erewrite bind_ok by (unfold getSessionState, ask; fold key; rewrite G; reflexivity). cbv beta iota. unfold proposes.
  destruct (eStatus a =? StatusError); cbn [negb andb]; [exists []; reflexivity|].
  destruct (stNextSender ss) as [k|] eqn:E; [rewrite andb_false_r; exists (stNym ss); reflexivity|].
  destruct (rCoin r); cbn [andb]; [|exists (stNym ss); reflexivity].
  exists (stNym ss). reflexivity.
Qed.
Definition encRefill (C : Crypto) (a : encArgs) (sk root own peer fix_ : bytes) (n : nat) (count : N) : list op :=
  if N.of_nat n <=? count then [refillOp C sk root own peer fix_ n (N.to_nat (numKeys (eNumKeys a)))] else [].
Lemma numKeys_pos n : 1 <= numKeys n.
Proof. unfold numKeys, NumOfFutureKeys. destruct (N.eqb_spec n 0); lia. Qed.
Lemma encKey_cont C a ss w sa sb x y s root n ks ks' :
  uPubKeys (idUid (eFrom a)) = initDHKey C sa :: ks -> uPubKeys (eTo a) = initDHKey C sb :: ks' ->
  stSenderPub ss = initDHKey C x -> stRecipTemp ss = initDHKey C y -> lenN root = 32 -> wfb root ->
  let sk := sessKeyOf C (idHash C sa) (idHash C sb) (dhpub C x) (dhpub C y) in
  let fix_ := identityFix C (uIdentity (idUid (eFrom a))) (uIdentity (eTo a)) in
  mget sk (sessions (wStore w)) = Some s ->
  sessOk C root (dhpub C x) (dhpub C y) fix_ (b64enc (sha512 C root)) n s ->
  stMsgCount ss <= N.of_nat n -> (stMsgCount ss < N.of_nat n -> nthN (stMsgCount ss) (sSend s) <> []) ->
  encKey C a ss w = (Ok (sk, msgKeyVal C (chainAt C root (N.to_nat (stMsgCount ss))) (dhpub C y) fix_),
                     steps w (encRefill C a sk root (dhpub C x) (dhpub C y) fix_ n (stMsgCount ss))).
Proof.
  intros F T X Y LR WR sk fix_ G O L NE. unfold encRefill. destruct (N.leb_spec (N.of_nat n) (stMsgCount ss)) as [B|B].
  2:{ rewrite (encKey_at C a ss w sa sb x y s root n ks ks' F T X Y G O); [reflexivity|lia|apply NE; lia]. }
  unfold encKey. rewrite (pubKey_cons _ _ _ F), (pubKey_cons _ _ _ T), X, Y. rewrite !lift_bind. rewrite !keHash_init.
  fold (sessKeyOf C (hashText C (dhpub C sa)) (hashText C (dhpub C sb)) (dhpub C x) (dhpub C y)). fold sk.
  erewrite bind_ok by (apply numMessageKeys_get; exact G). cbv beta.
  destruct (N.leb_spec (lenN (sSend s)) (stMsgCount ss)) as [B2|B2].
  2:{ pose proof (so_slen _ _ _ _ _ _ _ _ O). unfold lenN in B2. lia. }
  erewrite bind_ok.
  2:{ erewrite bind_ok by (eapply getChainKey_ok; eassumption). cbv beta. rewrite !initDHKey_pub32, !lift_bind.
      rewrite generate_eq by apply numKeys_pos. cbv iota. reflexivity. }
  cbv beta. fold fix_. change (sessKeyOf C (hashText C (dhpub C sa)) (hashText C (dhpub C sb)) (dhpub C x) (dhpub C y)) with sk.
  set (m := N.to_nat (numKeys (eNumKeys a))) in *. pose proof (numKeys_pos (eNumKeys a)) as NP.
  erewrite bind_ok.
  2:{ apply getMessageKey_eq. cbn [step_op wStore]. eapply (getMessageKeyR_sessOk _ _ _ _ _ _ _ _ _ _ true).
      - apply (refill_get C sk root (dhpub C x) (dhpub C y) fix_ n m s). exact G.
      - apply refilled_ok. exact O.
      - unfold m. lia.
      - cbv iota. rewrite nthN_to_nat. refine (proj1 (refilled_new _ _ _ _ _ _ _ _ _ _ O _)). unfold m. lia. }
  reflexivity.
Qed.

(* ---- Decrypt: the header of a message from the party with static key sa to the party with static key sb, sent in the
   session of the keys x (sender's) and y (recipient's), with the proposal and the confirmation it carries ---- *)
Record hdrIs (C : Crypto) (i : ident) (h : header) (sa x sb y : bytes) (on os : option bytes) : Prop := {
  hi_to : exists ks, uPubKeys (idUid i) = initDHKey C sb :: ks;
  hi_priv : idEncPriv i = Some sb;
  hi_sender : hSenderPub h = initDHKey C sa;
  hi_sess : hSessPub h = initDHKey C x;
  hi_temp : hRecipTempHash h = hashText C (dhpub C y);
  hi_next : hNext h = option_map (initDHKey C) on;
  hi_seen : hSeen h = option_map (initDHKey C) os }.
Definition skOf (C : Crypto) (sb sa y x : bytes) : bytes := sessKeyOf C (idHash C sb) (idHash C sa) (dhpub C y) (dhpub C x).
Lemma decState_known C ra hp i h w sa x sb y on os s r w' : hdrIs C i h sa x sb y on os ->
  mget (skOf C sb sa y x) (sessions (wStore w)) = Some s ->
  decKnown C hp i (initDHKey C sb) h (calcStateKey C (dhpub C sb) (dhpub C sa)) (skOf C sb sa y x)
    (mget (calcStateKey C (dhpub C sb) (dhpub C sa)) (states (wStore w))) (numKeys (dNumKeys ra)) (dPriv ra) (dCleanup ra) w = (Ok r, w') ->
  decState C ra hp i h w = (Ok (initDHKey C sb, skOf C sb sa y x, r), w').
Proof.
  intros [[ks T] P S X Tm Nx Sn] K D. unfold decState. rewrite (pubKey_cons _ _ _ T), S, X, Tm. do 4 rewrite ?lift_bind, ?initDHKey_pub32.
  erewrite bind_ok by (unfold getSessionState, ask; reflexivity). cbv beta. rewrite !keHash_init.
  fold (sessKeyOf C (hashText C (dhpub C sb)) (hashText C (dhpub C sa)) (dhpub C y) (dhpub C x)).
  change (sessKeyOf C (hashText C (dhpub C sb)) (hashText C (dhpub C sa)) (dhpub C y) (dhpub C x)) with (skOf C sb sa y x).
  erewrite bind_ok by (unfold hasSession, ask, mhas; rewrite K; reflexivity). cbv beta iota.
  erewrite bind_ok by exact D. reflexivity.
Qed.
Lemma decState_unknown C ra hp i h w sa x sb y on os r w' : hdrIs C i h sa x sb y on os ->
  mget (skOf C sb sa y x) (sessions (wStore w)) = None ->
  decUnknown C hp i (initDHKey C sb) h (calcStateKey C (dhpub C sb) (dhpub C sa)) (skOf C sb sa y x)
    (mget (calcStateKey C (dhpub C sb) (dhpub C sa)) (states (wStore w))) (numKeys (dNumKeys ra)) (dPriv ra) (dCleanup ra) w = (Ok r, w') ->
  decState C ra hp i h w = (Ok (initDHKey C sb, skOf C sb sa y x, r), w').
Proof.
  intros [[ks T] P S X Tm Nx Sn] K D. unfold decState. rewrite (pubKey_cons _ _ _ T), S, X, Tm. do 4 rewrite ?lift_bind, ?initDHKey_pub32.
  erewrite bind_ok by (unfold getSessionState, ask; reflexivity). cbv beta. rewrite !keHash_init.
  fold (sessKeyOf C (hashText C (dhpub C sb)) (hashText C (dhpub C sa)) (dhpub C y) (dhpub C x)).
  change (sessKeyOf C (hashText C (dhpub C sb)) (hashText C (dhpub C sa)) (dhpub C y) (dhpub C x)) with (skOf C sb sa y x).
  erewrite bind_ok by (unfold hasSession, ask, mhas; rewrite K; reflexivity). cbv beta iota.
  erewrite bind_ok by exact D. reflexivity.
Qed.
Lemma mret_eq {A} (x : A) w : mret x w = (Ok x, w). Proof. reflexivity. Qed.
(* a first message for a published key, when the state is kept *)
Lemma decUnknown_keep C hp i h key sk ss nk priv cl w sa x sb y on os : hdrIs C i h sa x sb y on os ->
  mget (hashText C (dhpub C y)) (privKEs (wStore w)) = Some (initDHKey C y, y) -> fiveKeys C hp sa x sb y -> 1 <= nk ->
  stKeyInit ss && bltb (hSender h) (uIdentity (idUid i)) = false ->
  decUnknown C hp i (initDHKey C sb) h key sk (Some ss) nk priv cl w =
  (Ok (Some ss), steps w [newSess C sb sa y x (identityFix C (hSender h) (uIdentity (idUid i))) (rootOf C sa x sb y None) nk]).
Proof.
  intros [[ks T] P S X Tm Nx Sn] K V Hn B. unfold decUnknown. rewrite Tm, S, X, B.
  erewrite bind_ok by (unfold getPrivateKeyEntry, ask; rewrite K; reflexivity). cbv beta iota.
  unfold priv32. rewrite P. cbn [keFunc initDHKey]. rewrite beq_refl, lift_bind.
  erewrite bind_ok by (apply agreeR; assumption). reflexivity.
Qed.
(* ... and when the message's session becomes the current one *)
Definition adopted (C : Crypto) (x y z : bytes) (on : option bytes) (nym : bytes) : state :=
  mkState 0 0 0 (initDHKey C x) (initDHKey C y) (Some (initDHKey C z)) (option_map (initDHKey C) on) nym false.
Lemma decUnknown_adopt C hp i h key oss nk z cl w sa x sb y on os : hdrIs C i h sa x sb y on os ->
  mget (hashText C (dhpub C y)) (privKEs (wStore w)) = Some (initDHKey C y, y) -> fiveKeys C hp sa x sb y -> 1 <= nk ->
  (forall hn, on = Some hn -> fiveKeys C hp sb z sa hn) ->
  match oss with None => true | Some ss => stKeyInit ss && bltb (hSender h) (uIdentity (idUid i)) end = true ->
  let fix_ := identityFix C (hSender h) (uIdentity (idUid i)) in
  let sk := skOf C sb sa y x in
  let root := rootOf C sa x sb y None in
  mget sk (sessions (wStore w)) = None ->
  decUnknown C hp i (initDHKey C sb) h key sk oss nk z cl w =
  (Ok (Some (adopted C x y z on (hNym h))),
   steps w ([newSess C sb sa y x fix_ root nk; addKey C z cl]
            ++ match on with None => [] | Some hn => [newSess C sb sa z hn fix_ (rootOf C sb z sa hn (Some (sha512 C root))) nk] end
            ++ [OSetState key (adopted C x y z on (hNym h))])).
Proof.
  intros [[ks T] P S X Tm Nx Sn] K V Hn VN B fix_ sk root NS. unfold decUnknown. rewrite Tm, S, X, B, Nx.
  erewrite bind_ok by (unfold getPrivateKeyEntry, ask; rewrite K; reflexivity). cbv beta iota.
  unfold priv32. rewrite P. cbn [keFunc initDHKey]. rewrite beq_refl, lift_bind.
  erewrite bind_ok by (apply agreeR; assumption). cbv beta. fold fix_ root.
  erewrite bind_ok by reflexivity. cbv beta.
  destruct on as [hn|]; cbn [option_map].
  - erewrite bind_ok.
    2:{ erewrite bind_ok.
        2:{ eapply (getRootKeyHash_ok C sk _ (sessAfter C y x fix_ root nk) root); [|apply sessAfter_ok].
            cbn [step_op wStore apply_op sessions]. apply newSess_get. exact NS. }
        cbv beta. apply agreeS; [apply VN; reflexivity|exact Hn]. }
    cbv beta. rewrite (identityFix_sym C (uIdentity (idUid i)) (hSender h)). fold fix_.
    erewrite bind_ok by reflexivity. reflexivity.
  - erewrite bind_ok by reflexivity. cbv beta. erewrite bind_ok by reflexivity. reflexivity.
Qed.
(* a known session *)
Lemma decKnown_idle C hp i recipKE h key sk ss nk priv cl w :
  (if beq (hRecipTempHash h) (keHash (stSenderPub ss)) && beq (keHash (hSessPub h)) (keHash (stRecipTemp ss))
   then match hNext h, stNextSender ss with Some _, None => false | Some _, Some own => negb (isHash (keHash own) (hSeen h)) | None, _ => true end
   else match stNextSender ss with Some own => negb (isHash (hRecipTempHash h) (Some own) && isHash (keHash (hSessPub h)) (stNextSeen ss)) | None => true end) = true ->
  decKnown C hp i recipKE h key sk (Some ss) nk priv cl w = (Ok (Some ss), steps w [ODelPriv (hRecipTempHash h)]).
Proof.
  intros B. unfold decKnown. destruct (beq _ _ && beq _ _).
  - destruct (hNext h) as [hn|]; [|erewrite bind_ok by reflexivity; reflexivity].
    destruct (stNextSender ss) as [own|]; [|discriminate]. apply negb_true_iff in B. rewrite B.
    erewrite bind_ok by reflexivity; reflexivity.
  - destruct (stNextSender ss) as [own|]; [|erewrite bind_ok by reflexivity; reflexivity]. apply negb_true_iff in B. rewrite B.
    erewrite bind_ok by reflexivity; reflexivity.
Qed.
Definition proposed (C : Crypto) (ss : state) (z hn : bytes) : state :=
  mkState (stSessCount ss) (stMsgCount ss) (stMaxRecv ss) (stRecipTemp ss) (stSenderPub ss) (Some (initDHKey C z)) (Some (initDHKey C hn)) (stNym ss) (stKeyInit ss).
Lemma decKnown_answer C hp i h key sk ss nk z cl w sa x sb y hn os prev : hdrIs C i h sa x sb y (Some hn) os ->
  stSenderPub ss = initDHKey C y -> stRecipTemp ss = initDHKey C x -> stNextSender ss = None -> stNextSeen ss = None ->
  (forall v, sessions (wStore v) = sessions (wStore w) -> getRootKeyHash sk v = (Ok prev, v)) ->
  fiveKeys C hp sb z sa hn -> 1 <= nk ->
  let fix_ := identityFix C (hSender h) (uIdentity (idUid i)) in
  decKnown C hp i (initDHKey C sb) h key sk (Some ss) nk z cl w =
  (Ok (Some (proposed C ss z hn)),
   steps w [addKey C z cl; OSetState key (withNext ss (initDHKey C z)); newSess C sb sa z hn fix_ (rootOf C sb z sa hn (Some prev)) nk;
            OSetState key (proposed C ss z hn); ODelPriv (hRecipTempHash h)]).
Proof.
  intros [[ks T] P S X Tm Nx Sn] Y1 X1 N1 N2 GR V Hn fix_. unfold decKnown. rewrite Tm, X, Y1, X1, Nx, N1. rewrite !keHash_init, !beq_refl. cbn [andb option_map].
  unfold setNextSenderSessionPub.
  match goal with |- mbind ?m ?f w = _ => assert (E : m w = (Ok (proposed C ss z hn),
    steps w [addKey C z cl; OSetState key (withNext ss (initDHKey C z)); newSess C sb sa z hn fix_ (rootOf C sb z sa hn (Some prev)) nk; OSetState key (proposed C ss z hn)])) end.
  { erewrite bind_ok.
    2:{ unfold addSessionKey. erewrite bind_ok by reflexivity. cbv beta zeta. erewrite bind_ok by reflexivity. reflexivity. }
    cbv beta iota.
    erewrite bind_ok by (apply (GR (steps w [addKey C z cl; OSetState key (withNext ss (initDHKey C z))])); reflexivity). cbv beta. unfold priv32. rewrite P. cbn [keFunc initDHKey]. rewrite beq_refl, lift_bind. rewrite S.
    erewrite bind_ok by (apply agreeS; assumption). cbv beta. cbn [stNextSeen]. rewrite N2.
    erewrite bind_ok by reflexivity. cbv beta. rewrite (identityFix_sym C (uIdentity (idUid i)) (hSender h)). fold fix_. reflexivity. }
  erewrite bind_ok by exact E. cbv beta. erewrite bind_ok by reflexivity. reflexivity.
Qed.
Lemma getSessionKey_ok C w e p : mget (hashText C (dhpub C e)) (skeys (wStore w)) = Some p -> skJson p = keJSON (initDHKey C e) ->
  skPriv p = [] \/ (exists q, skPriv p = b64enc q /\ wfb q /\ lenN q = 32) ->
  getSessionKey (hashText C (dhpub C e)) w = (Ok (initDHKey C e, if beq (skPriv p) [] then None else b64dec (skPriv p)), w).
Proof.
  intros G J Q. unfold getSessionKey. erewrite bind_ok by (unfold ask; rewrite G; reflexivity). cbv beta iota. rewrite J, newKE_JSON, lift_bind.
  destruct (beq (skPriv p) []) eqn:B; [reflexivity|].
  destruct Q as [Q|(q & Q & W & L)]; [rewrite Q, beq_refl in B; discriminate|].
  rewrite Q, b64dec_enc by exact W. cbn [initDHKey keFunc]. rewrite beq_refl. cbn [orb]. rewrite L. reflexivity.
Qed.
Lemma b64enc_nonnil b : lenN b = 32 -> b64enc b <> [].
Proof. intros L E. assert (Q : lenN (b64enc b) = 0) by (rewrite E; reflexivity). rewrite lenN_b64enc, L in Q. discriminate. Qed.
Lemma decKnown_switch C hp i h key sk ss nk priv cl w sa x sb y hn e prev p : hdrIs C i h sa x sb y (Some hn) (Some e) ->
  stSenderPub ss = initDHKey C y -> stRecipTemp ss = initDHKey C x -> stNextSender ss = Some (initDHKey C e) ->
  mget (hashText C (dhpub C e)) (skeys (wStore w)) = Some p -> skJson p = keJSON (initDHKey C e) -> skPriv p = b64enc e -> wfb e -> lenN e = 32 ->
  getRootKeyHash sk w = (Ok prev, w) ->
  fiveKeys C hp sa hn sb e -> 1 <= nk ->
  let fix_ := identityFix C (hSender h) (uIdentity (idUid i)) in
  let ss' := switched ss (initDHKey C hn) (initDHKey C e) (hNym h) in
  decKnown C hp i (initDHKey C sb) h key sk (Some ss) nk priv cl w =
  (Ok (Some ss'), steps w [newSess C sb sa e hn fix_ (rootOf C sa hn sb e (Some prev)) nk; OSetState key ss'; ODelPriv (hRecipTempHash h)]).
Proof.
  intros [[ks T] P S X Tm Nx Sn] Y1 X1 N1 G J Q WE LE GR V Hn fix_ ss'. unfold decKnown. rewrite Tm, X, Y1, X1, Nx, N1, Sn. rewrite !keHash_init, !beq_refl. cbn [andb option_map].
  unfold isHash. rewrite keHash_init, beq_refl.
  match goal with |- mbind ?m ?f w = _ => assert (E : m w = (Ok ss',
    steps w [newSess C sb sa e hn fix_ (rootOf C sa hn sb e (Some prev)) nk; OSetState key ss'])) end.
  { erewrite bind_ok by (eapply getSessionKey_ok; [exact G|exact J|right; exists e; auto]). cbv beta iota.
    destruct (beq (skPriv p) []) eqn:BQ; [apply beq_spec in BQ; rewrite Q in BQ; exfalso; exact (b64enc_nonnil e LE BQ)|]. rewrite Q, b64dec_enc by exact WE.
    erewrite bind_ok by exact GR. cbv beta. unfold priv32 at 1. rewrite P. cbn [keFunc initDHKey]. rewrite beq_refl, lift_bind.
    unfold priv32. cbn [keFunc initDHKey]. rewrite beq_refl, lift_bind. rewrite S. fold (initDHKey C e). fold (initDHKey C hn).
    erewrite bind_ok by (apply agreeR; assumption). cbv beta.
    erewrite bind_ok by reflexivity. reflexivity. }
  erewrite bind_ok by exact E. cbv beta. erewrite bind_ok by reflexivity. reflexivity.
Qed.
Lemma decKnown_follow C hp i recipKE h key sk ss nk priv cl w own : 
  beq (hRecipTempHash h) (keHash (stSenderPub ss)) && beq (keHash (hSessPub h)) (keHash (stRecipTemp ss)) = false ->
  stNextSender ss = Some own -> isHash (hRecipTempHash h) (Some own) && isHash (keHash (hSessPub h)) (stNextSeen ss) = true ->
  let ss' := switched ss (hSessPub h) own (hNym h) in
  decKnown C hp i recipKE h key sk (Some ss) nk priv cl w = (Ok (Some ss'), steps w [OSetState key ss'; ODelPriv (hRecipTempHash h)]).
Proof.
  intros B N1 M ss'. unfold decKnown. rewrite B, N1, M. erewrite bind_ok by reflexivity. cbv beta. reflexivity.
Qed.
(* message keys *)
Lemma refillCount_le count nk k : 1 <= nk -> count <= k * nk -> k * nk < 2 ^ 64 -> count <= refillCount count nk /\ refillCount count nk <= k * nk.
Proof.
  intros Hn Hc Hk. unfold refillCount, u64.
  pose proof (N.div_mod count nk ltac:(lia)) as D. pose proof (N.mod_lt count nk ltac:(lia)) as M.
  set (q := count / nk) in *. set (r := count mod nk) in *.
  assert (A : (q + (if 0 <? r then 1 else 0)) <= k).
  { destruct (N.ltb_spec 0 r); nia. }
  assert (B : (q + (if 0 <? r then 1 else 0)) * nk <= k * nk) by (apply N.mul_le_mono_r; exact A).
  rewrite N.mod_small by lia. split; [|exact B]. destruct (N.ltb_spec 0 r); nia.
Qed.
Definition decRefill (C : Crypto) (sk root own peer fix_ : bytes) (n : nat) (count nk : N) : list op :=
  if N.of_nat n <=? count then [refillOp C sk root own peer fix_ n (N.to_nat (refillCount count nk))] else [].
(* where Decrypt finds the recipient's public key when it has to make more keys *)
Definition findsOwn (C : Crypto) (st : store) (ss : state) (y : bytes) : Prop :=
  (keHash (stSenderPub ss) = hashText C (dhpub C y) -> stSenderPub ss = initDHKey C y) /\
  ((exists q, mget (hashText C (dhpub C y)) (privKEs st) = Some (initDHKey C y, q)) \/
   (mget (hashText C (dhpub C y)) (privKEs st) = None /\ exists p, mget (hashText C (dhpub C y)) (skeys st) = Some p /\
      skJson p = keJSON (initDHKey C y) /\ (skPriv p = [] \/ (exists q, skPriv p = b64enc q /\ wfb q /\ lenN q = 32)))).
Lemma decKey_cont C i h ss nk w sa x sb y on os s root n k : hdrIs C i h sa x sb y on os -> lenN root = 32 -> wfb root -> 1 <= nk ->
  let sk := skOf C sb sa y x in
  let fix_ := identityFix C (hSender h) (uIdentity (idUid i)) in
  mget sk (sessions (wStore w)) = Some s -> sessOk C root (dhpub C y) (dhpub C x) fix_ (b64enc (sha512 C root)) n s -> (1 <= n)%nat ->
  (hMsgCount h < N.of_nat n -> nthN (hMsgCount h) (sRecv s) <> []) ->
  (N.of_nat n <= hMsgCount h -> hMsgCount h <= k * nk /\ k * nk <= 301) -> findsOwn C (wStore w) ss y ->
  decKey C i (initDHKey C sb) h sk (Some ss) nk w =
  (Ok (msgKeyVal C (chainAt C root (N.to_nat (hMsgCount h))) (dhpub C y) fix_), steps w (decRefill C sk root (dhpub C y) (dhpub C x) fix_ n (hMsgCount h) nk)).
Proof.
  intros HI LR WR Hnk sk fix_ G O Hn NE K12 [FO1 FO2].
  unfold decRefill. destruct (N.leb_spec (N.of_nat n) (hMsgCount h)) as [B|B].
  2:{ rewrite (decKey_at C i (initDHKey C sb) h sk (Some ss) nk w root (dhpub C y) (dhpub C x) fix_ _ n s G O); [reflexivity|lia|apply NE; lia]. }
  destruct (K12 B) as [K1 K2]. destruct (refillCount_le (hMsgCount h) nk k Hnk K1 ltac:(lia)) as [R1 R2].
  unfold decKey. erewrite bind_ok by (apply numMessageKeys_get; exact G). cbv beta.
  destruct (N.leb_spec (lenN (sSend s)) (hMsgCount h)) as [B2|B2].
  2:{ pose proof (so_slen _ _ _ _ _ _ _ _ O). unfold lenN in B2. lia. }
  erewrite bind_ok.
  2:{ erewrite bind_ok by (eapply getChainKey_ok; eassumption). cbv beta zeta.
      destruct (N.ltb_spec refillLimit (refillCount (hMsgCount h) nk)) as [B3|B3]; [exfalso; revert B3; change refillLimit with 301; lia|].
      destruct HI as [[ks T] P S X Tm Nx Sn]. rewrite Tm, X, S.
      match goal with |- mbind ?m ?f w = _ => assert (E : m w = (Ok (dhpub C y), w)) end.
      { destruct (beq (hashText C (dhpub C y)) (keHash (stSenderPub ss))) eqn:BE.
        - apply beq_spec in BE. rewrite FO1 by (symmetry; exact BE). rewrite initDHKey_pub32. reflexivity.
        - destruct FO2 as [(q & F2)|(F2 & p & F3 & F4 & F5)].
          + erewrite bind_ok by (unfold getPrivateKeyEntry, ask; rewrite F2; reflexivity). cbv beta iota. rewrite initDHKey_pub32. reflexivity.
          + erewrite bind_ok by (unfold getPrivateKeyEntry, ask; rewrite F2; reflexivity). cbv beta iota.
            erewrite bind_ok by (eapply getSessionKey_ok; eassumption). cbv beta iota. rewrite initDHKey_pub32. reflexivity. }
      erewrite bind_ok by exact E. cbv beta. rewrite initDHKey_pub32, lift_bind. rewrite !keHash_init.
      rewrite generate_eq by lia. cbv iota. reflexivity. }
  cbv beta. fold fix_. change (sessKeyOf C (hashText C (dhpub C sb)) (hashText C (dhpub C sa)) (dhpub C y) (dhpub C x)) with sk.
  set (m := N.to_nat (refillCount (hMsgCount h) nk)) in *.
  erewrite getMessageKey_eq.
  2:{ cbn [step_op wStore]. eapply (getMessageKeyR_sessOk _ _ _ _ _ _ _ _ _ _ false).
      - apply (refill_get C sk root (dhpub C y) (dhpub C x) fix_ n m s). exact G.
      - apply refilled_ok. exact O.
      - unfold m. lia.
      - cbv iota. rewrite nthN_to_nat. refine (proj2 (refilled_new _ _ _ _ _ _ _ _ _ _ O _)). unfold m. lia. }
  reflexivity.
Qed.
Lemma refillCount_over count nk : 1 <= nk -> nk < 2 ^ 63 -> count < 2 ^ 63 -> (forall k, count <= k * nk -> 301 < k * nk) -> 301 < refillCount count nk.
Proof.
  intros Hn Hk Hc F. unfold refillCount, u64.
  pose proof (N.div_mod count nk ltac:(lia)) as D. pose proof (N.mod_lt count nk ltac:(lia)) as M.
  set (q := count / nk) in *. set (r := count mod nk) in *. set (t := q + (if 0 <? r then 1 else 0)).
  assert (A : count <= t * nk) by (unfold t; destruct (N.ltb_spec 0 r); nia).
  assert (B : t * nk < 2 ^ 64). { assert (t * nk <= count + nk) by (unfold t; destruct (N.ltb_spec 0 r); nia). lia. }
  rewrite N.mod_small by exact B. exact (F t A).
Qed.
Lemma decKey_over C i ke h oss nk w sk s root own peer fix_ n :
  mget sk (sessions (wStore w)) = Some s -> sessOk C root own peer fix_ (b64enc (sha512 C root)) n s -> (1 <= n)%nat -> lenN root = 32 -> wfb root ->
  N.of_nat n <= hMsgCount h -> 301 < refillCount (hMsgCount h) nk ->
  decKey C i ke h sk oss nk w = (Err "msg: requested number of message keys too large", w).
Proof.
  intros G O Hn LR WR B R. unfold decKey. erewrite bind_ok by (apply numMessageKeys_get; exact G). cbv beta.
  destruct (N.leb_spec (lenN (sSend s)) (hMsgCount h)) as [B2|B2].
  2:{ pose proof (so_slen _ _ _ _ _ _ _ _ O). unfold lenN in B2. lia. }
  unfold mbind at 1. erewrite bind_ok by (eapply getChainKey_ok; eassumption). cbv beta zeta.
  change refillLimit with 301. rewrite (proj2 (N.ltb_lt _ _)) by exact R. reflexivity.
Qed.
