(* Receiving: every message under way is decrypted, and the invariant is kept. *)
From Verif Require Import Base Base64Model Base64Proofs CodecModel CodecProofs JsonModel JsonProofs Maps CryptoModel StoreModel KeysModel KeysProofs MsgFormatModel MsgFormatProofs HeaderModel HeaderProofs ProtoModel ProtoProofs ProtoFirst ProtoCases ConvModel ConvSteps ConvInv ConvProofs ConvSend.
Local Open Scope N_scope.

Section Recv.
Variable C : Crypto.
Variable P : bool -> party.
Notation sec := (sec P).
Notation SK := (SK C P).
Notation FX := (FX C P).
Notation rootN := (rootN C P).
Section Step.
Variable used : list bytes.
Hypothesis KU : NoDup (map (dhpub C) used).
Hypothesis HC : noColl C P used.
Notation prepared := (prepared C P used).

(* what the receiver p knows about a message in the session of the keys x (other party) and y (own) *)
Record incoming (p : bool) (g : ghost) (i : ident) (hpriv : bytes) (h : header) (x y : bytes) (on os : option bytes) (root : bytes) (cr : bool) : Prop := {
  in_h : hdrIs C i h (sec (negb p)) x (sec p) y on os;
  in_fix : identityFix C (hSender h) (uIdentity (idUid i)) = FX;
  in_thdr : gT g hpriv = Some THdr;
  in_gp : gp g p y x = Some (root, cr);
  in_cur : In (x, y) (gSess g (negb p));
  in_peer : In (y, x) (gSess g p) \/ (In y (pKIs (P p)) /\ root = rootN (negb p) x y None);
  in_tags : ownT g p y /\ ownT g (negb p) x;
  in_next : forall n, on = Some n -> gT g n = Some (TSess (negb p));
  in_seen : forall s, os = Some s -> ownT g p s;
  in_both : forall n s, on = Some n -> os = Some s -> In (n, s) (gSess g (negb p)) /\ gp g p s n = Some (rootN (negb p) n s (Some (sha512 C root)), negb p) }.
Lemma rootN_negb p x y prev : rootN (negb p) x y prev = rootOf C (sec (negb p)) x (sec p) y prev.
Proof. unfold ConvInv.rootN. now rewrite negb_involutive. Qed.
Lemma incoming_of p g i m id x y on os root cr r w nym w' ss w1 w2 hp sk mk body fk tk h :
  msgIs C P (negb p) g m id x y on os root cr r w nym w' ss w1 w2 hp sk mk body fk tk h -> isIdent C (P p) i ->
  incoming p g i (rHeaderPriv r) h x y on os root cr.
Proof.
  intros M [[I1 I2] I3]. destruct M. rewrite negb_involutive in *.
  pose proof (hdrOf_inv _ _ _ _ _ mi_hdr mi_wf) as (_ & _ & U3 & U4 & U5 & U6 & U7 & U8 & _).
  destruct mi_from as [[F1 [ks F2]] F3].
  constructor; try assumption.
  - constructor; try assumption.
    + rewrite (pubKey_cons _ _ _ F2) in U8. apply Ok_inj in U8. exact U8.
    + congruence.
    + rewrite U4, mi_y. apply keHash_init.
    + congruence.
    + congruence.
  - rewrite U3, F1, I1. apply FX_eq'.
  - now rewrite <- gp_negb.
  - destruct mi_peer as [Q|[Q1 Q2]]; [now left|right]. rewrite negb_involutive in Q1. split; [exact Q1|]. rewrite mi_gp in Q2. congruence.
  - tauto.
  - intros n s Hn Hs. destruct (mi_both n s Hn Hs) as [Q1 Q2]. split; [exact Q1|]. now rewrite <- gp_negb.
Qed.
Lemma p_ne p : p <> negb p. Proof. destruct p; discriminate. Qed.
Lemma hash_eqb a b : In a used -> In b used -> beq (hashText C (dhpub C a)) (hashText C (dhpub C b)) = beq a b.
Proof.
  intros A B. destruct (beqP a b) as [->|N]; [apply beq_refl|]. apply beq_neq. now apply (hash_ne C P used KU HC).
Qed.
Lemma gp_fresh g p z b : tagsOk P used g -> gT g z = None -> gp g p z b = None.
Proof. intros T N. destruct (gp g p z b) as [v|] eqn:E; [|reflexivity]. exfalso. exact (t_G _ _ _ T _ _ _ _ E N). Qed.
Definition known (p : bool) (g : ghost) (w : world) (i : ident) (hpriv : bytes) (h : header) (ra : decArgs) (x y : bytes) : Prop :=
  exists ss1 l g1 x1 y1 on1 os1, decState C ra (dhpub C hpriv) i h w = (Ok (initDHKey C (sec p), SK p y x, Some ss1), steps w l) /\
    prepared p g w (steps w l) l g1 ss1 x1 y1 on1 os1 /\ In (y, x) (gSess g1 p) /\
    storedKeys (numKeys (dNumKeys ra)) (SK p y x) (ap l (wStore w)) = storedKeys (numKeys (dNumKeys ra)) (SK p y x) (wStore w).
Lemma stored_new p st x y root nk : mget (SK p x y) (sessions st) = None ->
  storedKeys nk (SK p x y) (apply_op (newSess C (sec p) (sec (negb p)) x y FX root nk) st) = nk.
Proof.
  intros U. unfold storedKeys.
  assert (E : mget (SK p x y) (sessions (apply_op (newSess C (sec p) (sec (negb p)) x y FX root nk) st)) = Some (sessAfter C x y FX root nk)) by (apply newSess_get; exact U).
  rewrite E. cbn [sessAfter sRecv]. rewrite lenN_keysFor. lia.
Qed.
Lemma stored_other p st x y x' y' root n nk : In x used -> In y used -> In x' used -> In y' used -> x' <> x ->
  storedKeys nk (SK p x y) (apply_op (newSess C (sec p) (sec (negb p)) x' y' FX root n) st) = storedKeys nk (SK p x y) st.
Proof.
  intros A B D E N. unfold storedKeys. cbn [newSess apply_op sessions]. rewrite mget_mset_other; [reflexivity|].
  intros F. apply (SK_inj C P used KU HC p x y x' y') in F; try assumption. destruct F; congruence.
Qed.
Lemma stored_delPriv nk sk h st : storedKeys nk sk (apply_op (ODelPriv h) st) = storedKeys nk sk st.
Proof. unfold storedKeys. cbn [apply_op]. destruct (mget h (skeys st)); reflexivity. Qed.

(* first message of a session *)
Lemma recv_unknown p ra i w g hpriv h x y on os root cr : base C P p (wStore w) g -> stInv C P p (wStore w) g -> tagsOk P used g ->
  incoming p g i hpriv h x y on os root cr -> In (dPriv ra) used -> gT g (dPriv ra) = None -> lenN (dPriv ra) = 32 -> wfb (dPriv ra) ->
  mget (SK p y x) (sessions (wStore w)) = None -> ~ In (y, x) (gSess g p) -> known p g w i hpriv h ra x y.
Proof.
  intros B SI T M UZ NZ LZ WZ SU NS. destruct M as [MH MF MT MG MC MP [MY MX] MN MS MB]. set (z := dPriv ra) in *.
  destruct MP as [Q|[IK RT]]; [contradiction|].
  assert (TY : gT g y = Some (TKI p)) by (now apply (t_ki _ _ _ T)).
  assert (UY : In y used) by (eapply t_in; eassumption).
  assert (UX : In x used) by (eapply ownT_used; eassumption).
  assert (UH : In hpriv used) by (eapply t_in; eassumption).
  set (g1 := gNew p y x (root, cr) g).
  assert (E1 : ext g g1) by (apply ext_new; now right).
  assert (T1 : tagsOk P used g1) by (apply tags_new; assumption).
  assert (NSent : forall j, ~ In (y, x, j) (gSent g p)) by (intros j Q; apply NS; eapply b_sent; eassumption).
  set (nk := numKeys (dNumKeys ra)).
  assert (B1 : base C P p (apply_op (newSess C (sec p) (sec (negb p)) y x FX root nk) (wStore w)) g1).
  { apply (base_newSess C P used KU HC); try assumption; [now right|rewrite RT; apply rootN_len|rewrite RT; apply rootN_wf|apply numKeys_pos]. }
  assert (FV : fiveKeys C (dhpub C hpriv) (sec (negb p)) x (sec p) y).
  { pose proof (five_tags C P used KU g hpriv (negb p) x y T UH UX UY (or_introl MX)) as Q. rewrite negb_involutive in Q. apply Q; [exact MY|now left|].
    intros ->. destruct MX; congruence. }
  assert (RE : rootOf C (sec (negb p)) x (sec p) y None = root) by (rewrite RT; symmetry; apply rootN_negb).
  pose proof (b_priv _ _ _ _ _ B y IK) as PK.
  unfold known, SK. fold z nk.
  destruct (match mget (stateKey C P p) (states (wStore w)) with None => true | Some ss => stKeyInit ss && bltb (hSender h) (uIdentity (idUid i)) end) eqn:AD.
  - pose proof (decUnknown_adopt C (dhpub C hpriv) i h (stateKey C P p) (mget (stateKey C P p) (states (wStore w))) nk z (dCleanup ra) w (sec (negb p)) x (sec p) y on os
      MH PK FV (numKeys_pos _)) as D.
    assert (FN : forall hn, on = Some hn -> fiveKeys C (dhpub C hpriv) (sec p) z (sec (negb p)) hn).
    { intros hn Hn. specialize (MN hn Hn). apply (five_tags C P used KU g); try assumption.
      - eapply t_in; eassumption.
      - now right.
      - now right.
      - now left.
      - intros ->. congruence. }
    specialize (D FN AD SU). rewrite MF, RE in D.
    set (g2 := gTag z (TSess p) g1).
    assert (NZ1 : gT g1 z = None) by exact NZ.
    assert (E2 : ext g1 g2) by (now apply ext_tag).
    assert (T2 : tagsOk P used g2) by (apply tags_add; try assumption; intros; discriminate).
    assert (Z2 : gT g2 z = Some (TSess p)) by (cbn [g2 gTag gT]; now rewrite beq_refl).
    assert (B2 : base C P p (apply_op (addKey C z (dCleanup ra)) (apply_op (newSess C (sec p) (sec (negb p)) y x FX root nk) (wStore w))) g2)
      by (apply (base_addKey C P used KU HC); assumption).
    assert (NZS : forall v, ~ In (z, v) (gSess g2 p)).
    { intros v Q. change (In (z, v) (gSess g1 p)) in Q. destruct (b_tags _ _ _ _ _ B1 _ _ Q) as [[Q1|Q1] _]; congruence. }
    assert (NZM : forall v j, ~ In (z, v, j) (gSent g p)).
    { intros v j Q. apply (b_sent _ _ _ _ _ B) in Q. destruct (b_tags _ _ _ _ _ B _ _ Q) as [[Q1|Q1] _]; congruence. }
    assert (ZY : z <> y) by (intros Q; rewrite Q in NZ; congruence).
    set (ss1 := adopted C x y z on (hNym h)) in *.
    destruct on as [hn|].
    + specialize (MN hn eq_refl). change (rootOf C (sec p) z (sec (negb p)) hn (Some (sha512 C root))) with (rootN p z hn (Some (sha512 C root))) in D.
      set (root2 := rootN p z hn (Some (sha512 C root))) in *. set (g3 := gNew p z hn (root2, p) g2).
      assert (N2 : gp g2 p z hn = None) by (change (gp g1 p z hn = None); apply gp_fresh; assumption).
      assert (E3 : ext g2 g3) by (apply ext_new; now left).
      assert (H2 : gT g2 hn = Some (TSess (negb p))) by (apply (x_T _ _ E2), (x_T _ _ E1); exact MN).
      assert (B3 : base C P p (apply_op (newSess C (sec p) (sec (negb p)) z hn FX root2 nk)
        (apply_op (addKey C z (dCleanup ra)) (apply_op (newSess C (sec p) (sec (negb p)) y x FX root nk) (wStore w)))) g3).
      { apply (base_newSess C P used KU HC); try assumption; [now right|now right|apply NZS|now left|apply rootN_len|apply rootN_wf|apply numKeys_pos|].
        intros j. exact (NZM hn j). }
      assert (EX : ext g g3) by (eapply ext_trans; [exact E1|]; eapply ext_trans; eassumption).
      eexists ss1, _, g3, y, x, (Some z), (Some hn). split; [|split].
      * eapply decState_unknown; [exact MH|exact SU|]. exact D.
      * constructor; try reflexivity.
        -- cbn [app]. rewrite !ap_cons. cbn [ap fold_left]. apply base_state. exact B3.
        -- constructor; try reflexivity; cbn [ss1 adopted stSessCount stMsgCount]; try lia.
           ++ apply (x_sess _ _ E3), (x_sess _ _ E2). cbn [g1 gNew gSess]. rewrite upd_same. now left.
           ++ left. apply (x_sess _ _ EX). exact MC.
           ++ intros j Q. exfalso. exact (NSent j Q).
           ++ intros n Q. injection Q as <-. split; [exact Z2|]. split; [exact ZY|]. split.
              ** intros v Q. cbn [g3 gNew gSess] in Q. rewrite upd_same in Q. destruct Q as [Q|Q]; [apply pair_inj in Q as [_ <-]; reflexivity|]. exfalso. exact (NZS v Q).
              ** exact NZM.
           ++ intros s Q. injection Q as <-. exists z, root, cr. split; [reflexivity|]. split; [|split].
              ** cbn [g3 gNew gSess]. rewrite upd_same. now left.
              ** apply (x_G _ _ EX). exact MG.
              ** apply gp_new.
        -- cbn [app]. rewrite !ap_cons. cbn [ap fold_left]. apply stS_state. constructor; [intros; cbn [ss1 adopted stMsgCount]; lia|].
           intros n Q. injection Q as <-. eexists. split; [apply addKey_get|]. cbn [skJson skPriv]. auto.
        -- apply tags_new; [exact T2|now right|now right].
        -- exact EX.
        -- eapply keep_trans; [apply keep_new|]. eapply keep_trans; [apply keep_tag|apply keep_new]. intros Q. injection Q. apply p_ne.
        -- cbn [app]. rewrite !ap_cons. cbn [ap fold_left apply_op states]. apply mget_mset_same.
      * split; [apply (x_sess _ _ E3), (x_sess _ _ E2); cbn [g1 gNew gSess]; rewrite upd_same; now left|].
        cbn [app]. rewrite !ap_cons. cbn [ap fold_left]. fold nk. change (skOf C (sec p) (sec (negb p)) y x) with (SK p y x).
        match goal with |- storedKeys _ _ (apply_op _ (apply_op _ (apply_op _ ?s))) = _ =>
          transitivity (storedKeys nk (SK p y x) s); [apply (stored_other p (apply_op (addKey C z (dCleanup ra)) s)); try assumption; eapply t_in; eassumption|] end.
        rewrite stored_new by exact SU. unfold storedKeys, SK in *. rewrite SU. reflexivity.
    + assert (EX : ext g g2) by (eapply ext_trans; eassumption).
      eexists ss1, _, g2, y, x, (Some z), None. split; [|split].
      * eapply decState_unknown; [exact MH|exact SU|]. exact D.
      * constructor; try reflexivity.
        -- cbn [app]. rewrite !ap_cons. cbn [ap fold_left]. apply base_state. exact B2.
        -- constructor; try reflexivity; cbn [ss1 adopted stSessCount stMsgCount]; try lia.
           ++ apply (x_sess _ _ E2). cbn [g1 gNew gSess]. rewrite upd_same. now left.
           ++ left. apply (x_sess _ _ EX). exact MC.
           ++ intros j Q. exfalso. exact (NSent j Q).
           ++ intros n Q. injection Q as <-. split; [exact Z2|]. split; [exact ZY|]. split; [intros v Q; exfalso; exact (NZS v Q)|exact NZM].
           ++ discriminate.
        -- cbn [app]. rewrite !ap_cons. cbn [ap fold_left]. apply stS_state. constructor; [intros; cbn [ss1 adopted stMsgCount]; lia|].
           intros n Q. injection Q as <-. eexists. split; [apply addKey_get|]. cbn [skJson skPriv]. auto.
        -- exact T2.
        -- exact EX.
        -- eapply keep_trans; [apply keep_new|]. apply keep_tag. intros Q. injection Q. apply p_ne.
        -- cbn [app]. rewrite !ap_cons. cbn [ap fold_left apply_op states]. apply mget_mset_same.
      * split; [apply (x_sess _ _ E2); cbn [g1 gNew gSess]; rewrite upd_same; now left|].
        cbn [app]. rewrite !ap_cons. cbn [ap fold_left]. fold nk. change (skOf C (sec p) (sec (negb p)) y x) with (SK p y x).
        match goal with |- storedKeys _ _ (apply_op _ (apply_op _ ?s)) = _ => transitivity (storedKeys nk (SK p y x) s); [reflexivity|] end.
        rewrite stored_new by exact SU. unfold storedKeys, SK in *. rewrite SU. reflexivity.
  - unfold stInv in SI. destruct (mget (stateKey C P p) (states (wStore w))) as [ss|] eqn:SS; [|discriminate].
    destruct SI as (x0 & y0 & on0 & os0 & G & S).
    pose proof (decUnknown_keep C (dhpub C hpriv) i h (stateKey C P p) (SK p y x) ss nk z (dCleanup ra) w (sec (negb p)) x (sec p) y on os
      MH PK FV (numKeys_pos _) AD) as D. rewrite MF, RE in D.
    eexists ss, _, g1, x0, y0, on0, os0. split; [|split].
    + eapply decState_unknown; [exact MH|exact SU|]. unfold stateKey in SS. fold (sec p) in SS. fold (sec (negb p)) in SS. rewrite SS. exact D.
    + constructor; try reflexivity; try assumption.
      * apply stG_newSess; [exact G|now right|]. intros Q. destruct (k_nextT _ _ _ _ _ _ _ _ _ G y Q) as (Q1 & _). congruence.
      * cbn [ap fold_left]. eapply (stS_newSess C P used KU HC); try eassumption. apply (k_cur _ _ _ _ _ _ _ _ _ G).
      * apply keep_new.
    + split; [cbn [g1 gNew gSess]; rewrite upd_same; now left|].
      cbn [ap fold_left]. fold nk. change (skOf C (sec p) (sec (negb p)) y x) with (SK p y x).
      rewrite stored_new by exact SU. unfold storedKeys, SK in *. rewrite SU. reflexivity.
Qed.

(* further messages of a session *)
Lemma recv_idle p ra i w g hpriv h x y on os s ss x0 y0 on0 os0 : base C P p (wStore w) g -> tagsOk P used g ->
  hdrIs C i h (sec (negb p)) x (sec p) y on os -> mget (SK p y x) (sessions (wStore w)) = Some s -> In (y, x) (gSess g p) ->
  mget (stateKey C P p) (states (wStore w)) = Some ss -> stG C P p g ss x0 y0 on0 os0 -> stS C P p (wStore w) (stMsgCount ss) x0 y0 on0 ->
  on0 <> Some y ->
  decKnown C (dhpub C hpriv) i (initDHKey C (sec p)) h (stateKey C P p) (SK p y x) (Some ss) (numKeys (dNumKeys ra)) (dPriv ra) (dCleanup ra) w =
    (Ok (Some ss), steps w [ODelPriv (hRecipTempHash h)]) ->
  known p g w i hpriv h ra x y.
Proof.
  intros B T MH SU NS MS G S NY D. exists ss, [ODelPriv (hRecipTempHash h)], g, x0, y0, on0, os0. split; [|split].
  - eapply decState_known; [exact MH|exact SU|]. unfold stateKey in MS, D. fold (sec p) in MS, D. fold (sec (negb p)) in MS, D. rewrite MS. exact D.
  - constructor; try reflexivity; try assumption; cbn [ap fold_left].
    + apply base_delPriv. exact B.
    + apply stS_delPriv; [exact S|]. intros n Hn. rewrite (hi_temp _ _ _ _ _ _ _ _ _ MH).
      destruct (k_nextT _ _ _ _ _ _ _ _ _ G n Hn) as (TN & _). destruct (b_tags _ _ _ _ _ B _ _ NS) as [TY _].
      apply (hash_ne C P used KU HC); [eapply t_in; eassumption|eapply ownT_used; eassumption|congruence].
    + apply ext_refl.
    + apply keep_refl.
    + cbn [apply_op]. destruct (mget (hRecipTempHash h) (skeys (wStore w))); exact MS.
  - split; [exact NS|]. cbn [ap fold_left]. apply stored_delPriv.
Qed.
Lemma delPriv_states h st : states (apply_op (ODelPriv h) st) = states st.
Proof. cbn [apply_op]. destruct (mget h (skeys st)); reflexivity. Qed.
Lemma recv_known p ra i w g hpriv h x y on os root cr s : base C P p (wStore w) g -> stInv C P p (wStore w) g -> tagsOk P used g ->
  incoming p g i hpriv h x y on os root cr -> In (dPriv ra) used -> gT g (dPriv ra) = None -> lenN (dPriv ra) = 32 -> wfb (dPriv ra) ->
  mget (SK p y x) (sessions (wStore w)) = Some s -> In (y, x) (gSess g p) -> known p g w i hpriv h ra x y.
Proof.
  intros B SI T M UZ NZ LZ WZ SU NS. destruct M as [MH MF MT MG MC MP [MY MX] MN MSn MB]. set (z := dPriv ra) in *.
  assert (UY : In y used) by (eapply ownT_used; eassumption).
  assert (UX : In x used) by (eapply ownT_used; eassumption).
  assert (UH : In hpriv used) by (eapply t_in; eassumption).
  pose proof SI as SI'. unfold stInv in SI. destruct (mget (stateKey C P p) (states (wStore w))) as [ss|] eqn:MS; [|rewrite SI in NS; destruct NS].
  destruct SI as (x0 & y0 & on0 & os0 & G & S).
  pose proof G as [S1 S2 S3 S4 S5 S6 S7 S8 S9 S10 S11].
  destruct (b_tags _ _ _ _ _ B _ _ S7) as [TX0 TY0].
  assert (UX0 : In x0 used) by (eapply ownT_used; eassumption). assert (UY0 : In y0 used) by (eapply ownT_used; eassumption).
  destruct (b_sess _ _ _ _ _ B y x NS) as (s' & root' & cr' & n & A1 & A2 & A3 & A4 & A5 & A6 & A7 & A8).
  rewrite SU in A1. apply someInj in A1. subst s'. rewrite MG in A2. injection A2 as <- <-.
  pose proof (numKeys_pos (dNumKeys ra)) as NP. set (nk := numKeys (dNumKeys ra)) in *.
  set (key := stateKey C P p) in *.
  assert (FIN : forall ss1 l g1 x1 y1 on1 os1,
    decKnown C (dhpub C hpriv) i (initDHKey C (sec p)) h key (SK p y x) (Some ss) nk z (dCleanup ra) w = (Ok (Some ss1), steps w l) ->
    prepared p g w (steps w l) l g1 ss1 x1 y1 on1 os1 -> In (y, x) (gSess g1 p) ->
    storedKeys nk (SK p y x) (ap l (wStore w)) = storedKeys nk (SK p y x) (wStore w) -> known p g w i hpriv h ra x y).
  { intros ss1 l g1 x1 y1 on1 os1 D PR I1 ST. exists ss1, l, g1, x1, y1, on1, os1. split; [|split; [|split]; assumption].
    eapply decState_known; [exact MH|exact SU|]. unfold key, stateKey in MS, D. fold (sec p) in MS, D. fold (sec (negb p)) in MS, D. rewrite MS. exact D. }
  assert (KEYS : beq (hRecipTempHash h) (keHash (stSenderPub ss)) && beq (keHash (hSessPub h)) (keHash (stRecipTemp ss)) = beq y x0 && beq x y0).
  { rewrite (hi_temp _ _ _ _ _ _ _ _ _ MH), (hi_sess _ _ _ _ _ _ _ _ _ MH), S1, S2, !keHash_init, !hash_eqb; auto. }
  pose proof (hi_next _ _ _ _ _ _ _ _ _ MH) as HN. pose proof (hi_seen _ _ _ _ _ _ _ _ _ MH) as HS.
  assert (IDLE : (if beq y x0 && beq x y0
   then match hNext h, stNextSender ss with Some _, None => false | Some _, Some own => negb (isHash (keHash own) (hSeen h)) | None, _ => true end
   else match stNextSender ss with Some own => negb (isHash (hRecipTempHash h) (Some own) && isHash (keHash (hSessPub h)) (stNextSeen ss)) | None => true end) = true ->
   known p g w i hpriv h ra x y).
  { intros Q. assert (NY : on0 <> Some y).
    { intros Q0. destruct (S10 y Q0) as (_ & R2 & R3 & _). destruct (beqP y x0) as [E|_]; [contradiction|]. cbn [andb] in Q.
      specialize (R3 x NS). rewrite S3, Q0, S4, R3 in Q. cbn [option_map isHash] in Q.
      rewrite (hi_temp _ _ _ _ _ _ _ _ _ MH), (hi_sess _ _ _ _ _ _ _ _ _ MH), !keHash_init, !beq_refl in Q. discriminate. }
    eapply recv_idle; try eassumption. fold nk z key. apply decKnown_idle. rewrite KEYS. exact Q. }
  assert (FOLLOW : forall n0, beq y x0 && beq x y0 = false -> on0 = Some n0 ->
    isHash (hRecipTempHash h) (Some (initDHKey C n0)) && isHash (keHash (hSessPub h)) (stNextSeen ss) = true -> known p g w i hpriv h ra x y).
  { intros n0 Q EN IH. destruct (S10 n0 EN) as (R1 & R2 & R3 & R4).
    pose proof IH as IH'. apply andb_true_iff in IH' as [IH1 _]. cbn [isHash] in IH1.
    rewrite (hi_temp _ _ _ _ _ _ _ _ _ MH), keHash_init, hash_eqb in IH1; [|eapply t_in; eassumption|exact UY]. apply beq_spec in IH1. subst n0.
    assert (S3' : stNextSender ss = Some (initDHKey C y)) by (rewrite S3, EN; reflexivity).
    rewrite <- KEYS in Q.
    pose proof (decKnown_follow C (dhpub C hpriv) i (initDHKey C (sec p)) h key (SK p y x) ss nk z (dCleanup ra) w _ Q S3' IH) as D. cbv zeta in D.
    eapply (FIN _ _ g y x None None); [exact D| |exact NS|rewrite !ap_cons; cbn [ap fold_left]; rewrite stored_delPriv; reflexivity].
    constructor; try reflexivity; try assumption.
    - rewrite !ap_cons. cbn [ap fold_left]. apply base_delPriv, base_state. exact B.
    - constructor; try reflexivity; cbn [switched stSenderPub stRecipTemp stSessCount stMsgCount]; try lia; try discriminate.
      + apply (hi_sess _ _ _ _ _ _ _ _ _ MH).
      + unfold u64. apply N.mod_lt. lia.
      + exact NS.
      + left. exact MC.
      + intros j F. exfalso. exact (R4 _ _ F).
    - constructor; [intros; cbn [switched stMsgCount]; lia|discriminate].
    - apply ext_refl.
    - apply keep_refl.
    - rewrite !ap_cons. cbn [ap fold_left]. rewrite delPriv_states. cbn [apply_op states]. apply mget_mset_same. }
  destruct (beqP y x0) as [EY|NY], (beqP x y0) as [EX|NX]; cbn [andb] in *.
  - subst x0 y0. destruct on as [hn|]; [|apply IDLE; rewrite HN; reflexivity].
    cbn [option_map] in HN. specialize (MN hn eq_refl). assert (UHN : In hn used) by (eapply t_in; eassumption).
    destruct on0 as [n0|].
    + destruct (S10 n0 eq_refl) as (R1 & R2 & R3 & R4). assert (UN0 : In n0 used) by (eapply t_in; eassumption).
      destruct (isHash (hashText C (dhpub C n0)) (hSeen h)) eqn:IH.
      2:{ apply IDLE. rewrite HN, S3. cbn [option_map]. rewrite keHash_init, IH. reflexivity. }
      rewrite HS in IH. destruct os as [s0|]; [|discriminate]. cbn [option_map isHash] in IH. rewrite keHash_init in IH.
      rewrite hash_eqb in IH; [|eapply ownT_used; [exact T|apply MSn; reflexivity]|exact UN0]. apply beq_spec in IH. subst s0.
      destruct (MB hn n0 eq_refl eq_refl) as [Q1 Q2]. rewrite rootN_negb in Q2.
      assert (NN : ~ In (n0, hn) (gSess g p)).
      { intros Q. specialize (R3 hn Q). destruct (S11 hn R3) as (n1 & root1 & cr1 & E1 & _ & _ & E4). injection E1 as <-. rewrite Q2 in E4.
        injection E4. intros Q3 _. symmetry in Q3. exact (p_ne p Q3). }
      destruct (s_next _ _ _ _ _ _ _ _ S n0 eq_refl) as (e & SE1 & SE2 & SE3 & SE4 & SE5).
      set (root3 := rootOf C (sec (negb p)) hn (sec p) n0 (Some (sha512 C root))) in *.
      set (g1 := gNew p n0 hn (root3, negb p) g).
      assert (E1 : ext g g1) by (apply ext_new; now right).
      pose proof (decKnown_switch C (dhpub C hpriv) i h key (SK p y x) ss nk z (dCleanup ra) w (sec (negb p)) x (sec p) y hn n0 (sha512 C root) e MH S1 S2 S3 SE1 SE2 SE3 SE4 SE5
        (getRootKeyHash_ok C _ _ _ _ _ _ _ _ SU A5)) as D.
      assert (FV : fiveKeys C (dhpub C hpriv) (sec (negb p)) hn (sec p) n0).
      { pose proof (five_tags C P used KU g hpriv (negb p) hn n0 T UH UHN UN0) as Q. rewrite negb_involutive in Q. apply Q; [left; now right|now right|now left|]. intros ->. congruence. }
      specialize (D FV NP). cbv zeta in D. rewrite MF in D. fold root3 in D.
      assert (BN : base C P p (apply_op (newSess C (sec p) (sec (negb p)) n0 hn FX root3 nk) (wStore w)) g1).
      { apply (base_newSess C P used KU HC); try assumption; [now right|now right|now right|unfold root3; rewrite <- rootN_negb; apply rootN_len|unfold root3; rewrite <- rootN_negb; apply rootN_wf|].
        intros j. apply R4. }
      eapply (FIN _ _ g1 n0 hn None None); [exact D| |apply (x_sess _ _ E1); exact NS|].
      2:{ rewrite !ap_cons. cbn [ap fold_left]. rewrite stored_delPriv.
          exact (stored_other p (wStore w) y x n0 hn root3 nk nk UY UX UN0 UHN R2). }
      constructor; try reflexivity; try assumption.
      * rewrite !ap_cons. cbn [ap fold_left]. apply base_delPriv, base_state. exact BN.
      * constructor; try reflexivity; cbn [switched stSessCount stMsgCount]; try lia; try discriminate.
        -- unfold u64. apply N.mod_lt. lia.
        -- cbn [g1 gNew gSess]. rewrite upd_same. now left.
        -- left. apply (x_sess _ _ E1). exact Q1.
        -- intros j Q. exfalso. exact (R4 _ _ Q).
      * constructor; [intros; cbn [switched stMsgCount]; lia|discriminate].
      * apply tags_new; [exact T|now right|now right].
      * apply keep_new.
      * rewrite !ap_cons. cbn [ap fold_left]. rewrite delPriv_states. cbn [apply_op states]. apply mget_mset_same.
    + assert (os0 = None) as ->.
      { destruct os0 as [s0|]; [|reflexivity]. exfalso. destruct (S11 s0 eq_refl) as (n1 & root1 & cr1 & Q & _). discriminate. }
      set (g1 := gTag z (TSess p) g).
      assert (E1 : ext g g1) by (now apply ext_tag).
      assert (Z1 : gT g1 z = Some (TSess p)) by (cbn [g1 gTag gT]; now rewrite beq_refl).
      assert (T1 : tagsOk P used g1) by (apply tags_add; try assumption; intros; discriminate).
      assert (B1 : base C P p (apply_op (addKey C z (dCleanup ra)) (wStore w)) g1) by (apply (base_addKey C P used KU HC); assumption).
      assert (NZS : forall v, ~ In (z, v) (gSess g p)) by (intros v Q; destruct (b_tags _ _ _ _ _ B _ _ Q) as [[R|R] _]; congruence).
      assert (NZM : forall v j, ~ In (z, v, j) (gSent g p)) by (intros v j Q; exact (NZS v (b_sent _ _ _ _ _ B _ _ _ Q))).
      assert (ZY : z <> y) by (intros Q; rewrite Q in NZ; destruct MY; congruence).
      set (root2 := rootN p z hn (Some (sha512 C root))). set (g2 := gNew p z hn (root2, p) g1).
      assert (N2 : gp g1 p z hn = None) by (change (gp g p z hn = None); apply gp_fresh; assumption).
      assert (E2 : ext g1 g2) by (apply ext_new; now left).
      assert (EX : ext g g2) by (eapply ext_trans; eassumption).
      assert (H1 : gT g1 hn = Some (TSess (negb p))) by (apply (x_T _ _ E1); exact MN).
      assert (B2 : base C P p (apply_op (newSess C (sec p) (sec (negb p)) z hn FX root2 nk)
        (apply_op (OSetState key (withNext ss (initDHKey C z))) (apply_op (addKey C z (dCleanup ra)) (wStore w)))) g2).
      { apply (base_newSess C P used KU HC); try assumption; [now apply base_state|now right|now right|apply NZS|now left|apply rootN_len|apply rootN_wf|].
        intros j. exact (NZM hn j). }
      pose proof (decKnown_answer C (dhpub C hpriv) i h key (SK p y x) ss nk z (dCleanup ra) w (sec (negb p)) x (sec p) y hn os (sha512 C root) MH S1 S2 S3 S4) as D.
      assert (GR : forall v, sessions (wStore v) = sessions (wStore w) -> getRootKeyHash (SK p y x) v = (Ok (sha512 C root), v)).
      { intros v Ev. eapply getRootKeyHash_ok; [rewrite Ev; exact SU|exact A5]. }
      assert (FV : fiveKeys C (dhpub C hpriv) (sec p) z (sec (negb p)) hn).
      { apply (five_tags C P used KU g); try assumption; [now right|now right|now left|]. intros ->. congruence. }
      specialize (D GR FV NP). cbv zeta in D. rewrite MF in D. fold (rootN p z hn (Some (sha512 C root))) in D. fold root2 in D.
      eapply (FIN _ _ g2 y x (Some z) (Some hn)); [exact D| |apply (x_sess _ _ EX); exact NS|].
      2:{ rewrite !ap_cons. cbn [ap fold_left]. rewrite stored_delPriv.
          exact (stored_other p _ y x z hn root2 nk nk UY UX UZ UHN ZY). }
      constructor; try reflexivity; try assumption.
      * rewrite !ap_cons. cbn [ap fold_left]. apply base_delPriv, base_state. exact B2.
      * constructor; try reflexivity; try assumption; cbn [proposed stSenderPub stRecipTemp stSessCount stMsgCount]; try assumption.
        -- apply (x_sess _ _ EX). exact NS.
        -- left. apply (x_sess _ _ EX). exact MC.
        -- intros n1 Q. injection Q as <-. split; [exact Z1|]. split; [exact ZY|]. split; [|exact NZM].
           intros v Q. cbn [g2 gNew gSess] in Q. rewrite upd_same in Q. destruct Q as [Q|Q]; [apply pair_inj in Q as [_ <-]; reflexivity|]. exfalso. exact (NZS v Q).
        -- intros s0 Q. injection Q as <-. exists z, root, cr. split; [reflexivity|]. split; [|split].
           ++ cbn [g2 gNew gSess]. rewrite upd_same. now left.
           ++ apply (x_G _ _ EX). exact MG.
           ++ apply gp_new.
      * rewrite !ap_cons. cbn [ap fold_left]. apply stS_delPriv.
        -- apply stS_state. constructor.
           ++ intros s1 Q. cbn [proposed stMsgCount]. assert (Q' : mget (SK p y x) (sessions (wStore w)) = Some s1).
              { rewrite <- Q. symmetry. cbn [newSess apply_op sessions]. apply mget_mset_other. intros F.
                apply (SK_inj C P used KU HC p y x z hn) in F; try assumption. destruct F as [F _]. congruence. }
              exact (s_count _ _ _ _ _ _ _ _ S s1 Q').
           ++ intros n1 Q. injection Q as <-. eexists. split; [apply addKey_get|]. cbn [skJson skPriv]. auto.
        -- intros n1 Q. injection Q as <-. rewrite (hi_temp _ _ _ _ _ _ _ _ _ MH). apply (hash_ne C P used KU HC); assumption.
      * apply tags_new; [exact T1|now right|now right].
      * eapply keep_trans; [apply keep_tag|apply keep_new]. intros Q. injection Q. apply p_ne.
      * rewrite !ap_cons. cbn [ap fold_left]. rewrite delPriv_states. cbn [apply_op states]. apply mget_mset_same.
  - destruct on0 as [n0|]; [|apply IDLE; rewrite S3; reflexivity].
    destruct (isHash (hRecipTempHash h) (Some (initDHKey C n0)) && isHash (keHash (hSessPub h)) (stNextSeen ss)) eqn:IH; [|apply IDLE; rewrite S3; cbn [option_map]; rewrite IH; reflexivity].
    exfalso. apply andb_true_iff in IH as [IH1 _]. cbn [isHash] in IH1. destruct (S10 n0 eq_refl) as (R1 & R2 & _).
    rewrite (hi_temp _ _ _ _ _ _ _ _ _ MH), keHash_init, hash_eqb in IH1; [|eapply t_in; eassumption|exact UY]. apply beq_spec in IH1. congruence.
  - destruct on0 as [n0|]; [|apply IDLE; rewrite S3; reflexivity].
    destruct (isHash (hRecipTempHash h) (Some (initDHKey C n0)) && isHash (keHash (hSessPub h)) (stNextSeen ss)) eqn:IH; [|apply IDLE; rewrite S3; cbn [option_map]; rewrite IH; reflexivity].
    eapply FOLLOW; [reflexivity|reflexivity|exact IH].
  - destruct on0 as [n0|]; [|apply IDLE; rewrite S3; reflexivity].
    destruct (isHash (hRecipTempHash h) (Some (initDHKey C n0)) && isHash (keHash (hSessPub h)) (stNextSeen ss)) eqn:IH; [|apply IDLE; rewrite S3; cbn [option_map]; rewrite IH; reflexivity].
    eapply FOLLOW; [reflexivity|reflexivity|exact IH].
Qed.

Lemma recv_state p ra i w g hpriv h x y on os root cr : base C P p (wStore w) g -> stInv C P p (wStore w) g -> tagsOk P used g ->
  incoming p g i hpriv h x y on os root cr -> In (dPriv ra) used -> gT g (dPriv ra) = None -> lenN (dPriv ra) = 32 -> wfb (dPriv ra) ->
  known p g w i hpriv h ra x y.
Proof.
  intros B SI T M UZ NZ LZ WZ. destruct (mget (SK p y x) (sessions (wStore w))) as [s|] eqn:SU.
  - eapply recv_known; try eassumption. destruct (b_only _ _ _ _ _ B _ _ SU) as (y' & x' & I1 & E).
    destruct (b_tags _ _ _ _ _ B _ _ I1) as [T1 T2]. destruct (in_tags _ _ _ _ _ _ _ _ _ _ _ M) as [T3 T4].
    apply (SK_inj C P used KU HC) in E; try (eapply ownT_used; eassumption). destruct E as [-> ->]. exact I1.
  - eapply recv_unknown; try eassumption. intros I1. destruct (b_sess _ _ _ _ _ B _ _ I1) as (s & r' & c' & n & A1 & _). congruence.
Qed.
(* the outcome of the last step of key handling: a key, or the limit *)
Lemma recv_over p ra i w g hpriv h x y on os root cr oss : base C P p (wStore w) g ->
  incoming p g i hpriv h x y on os root cr -> In (y, x) (gSess g p) -> numKeys (dNumKeys ra) < 2 ^ 63 -> hMsgCount h < 2 ^ 63 ->
  storedKeys (numKeys (dNumKeys ra)) (SK p y x) (wStore w) <= hMsgCount h ->
  (forall k, hMsgCount h <= k * numKeys (dNumKeys ra) -> 301 < k * numKeys (dNumKeys ra)) ->
  decKey C i (initDHKey C (sec p)) h (SK p y x) oss (numKeys (dNumKeys ra)) w = (Err "msg: requested number of message keys too large", w).
Proof.
  intros B M NS LN LM ST K. destruct (b_sess _ _ _ _ _ B y x NS) as (s & root' & cr' & n & A1 & A2 & A3 & A4 & A5 & A6 & _).
  unfold storedKeys in ST. rewrite A1 in ST. pose proof (so_rlen _ _ _ _ _ _ _ _ A5) as RL. unfold lenN in ST.
  eapply decKey_over; try eassumption; [lia|]. apply refillCount_over; try assumption. apply numKeys_pos.
Qed.
Definition grown (nk num n : N) : N := if n <=? num then n + refillCount num nk else n.
Lemma recv_key p ra i w g hpriv h x y on os root cr k ss x1 y1 on1 os1 : base C P p (wStore w) g -> tagsOk P used g ->
  incoming p g i hpriv h x y on os root cr -> In (y, x) (gSess g p) -> ~ In (x, y, hMsgCount h) (gDel g (negb p)) ->
  (storedKeys (numKeys (dNumKeys ra)) (SK p y x) (wStore w) <= hMsgCount h -> hMsgCount h <= k * numKeys (dNumKeys ra) /\ k * numKeys (dNumKeys ra) <= 301) ->
  stG C P p g ss x1 y1 on1 os1 -> stS C P p (wStore w) (stMsgCount ss) x1 y1 on1 ->
  exists l, decKey C i (initDHKey C (sec p)) h (SK p y x) (Some ss) (numKeys (dNumKeys ra)) w =
      (Ok (msgKeyVal C (chainAt C root (N.to_nat (hMsgCount h))) (dhpub C y) FX), steps w l) /\
    base C P p (ap l (wStore w)) g /\ stS C P p (ap l (wStore w)) (stMsgCount ss) x1 y1 on1 /\
    mget (stateKey C P p) (states (ap l (wStore w))) = mget (stateKey C P p) (states (wStore w)) /\
    storedKeys (numKeys (dNumKeys ra)) (SK p y x) (ap l (wStore w)) = grown (numKeys (dNumKeys ra)) (hMsgCount h) (storedKeys (numKeys (dNumKeys ra)) (SK p y x) (wStore w)).
Proof.
  intros B T M NS ND K12 G S. destruct M as [MH MF MT MG MC MP [MY MX] MN MSn MB].
  assert (UY : In y used) by (eapply ownT_used; eassumption).
  destruct (b_sess _ _ _ _ _ B y x NS) as (s & root' & cr' & n & A1 & A2 & A3 & A4 & A5 & A6 & A7 & A8).
  rewrite MG in A2. injection A2 as <- <-.
  destruct (b_tags _ _ _ _ _ B _ _ (k_cur _ _ _ _ _ _ _ _ _ G)) as [TX1 _].
  assert (FO : findsOwn C (wStore w) ss y).
  { split.
    - rewrite (k_send _ _ _ _ _ _ _ _ _ G), keHash_init. intros Q. apply (hash_inj C P used KU HC) in Q; [now subst|eapply ownT_used; eassumption|exact UY].
    - destruct MY as [MY|MY].
      + left. exists y. apply (b_priv _ _ _ _ _ B). now apply (t_ki _ _ _ T).
      + right. split; [|exact (b_skeys _ _ _ _ _ B y MY)].
        destruct (mget (hashText C (dhpub C y)) (privKEs (wStore w))) as [v|] eqn:E; [|reflexivity]. exfalso.
        destruct (b_priv_only _ _ _ _ _ B _ _ E) as (kb & I1 & E1). apply (t_ki _ _ _ T) in I1.
        apply (hash_inj C P used KU HC) in E1; [subst; congruence|exact UY|eapply t_in; eassumption]. }
  pose proof (decKey_cont C i h ss (numKeys (dNumKeys ra)) w (sec (negb p)) x (sec p) y on os s root n k MH A3 A4 (numKeys_pos _)) as D.
  cbv zeta in D. rewrite MF in D. change (skOf C (sec p) (sec (negb p)) y x) with (SK p y x) in D.
  assert (NE : hMsgCount h < N.of_nat n -> nthN (hMsgCount h) (sRecv s) <> []).
  { intros H F. rewrite nthN_to_nat in F. apply A8 in F; [|lia]. rewrite N2Nat.id in F. contradiction. }
  assert (K3 : N.of_nat n <= hMsgCount h -> hMsgCount h <= k * numKeys (dNumKeys ra) /\ k * numKeys (dNumKeys ra) <= 301).
  { intros Q. apply K12. unfold storedKeys. rewrite A1. unfold lenN. rewrite (so_rlen _ _ _ _ _ _ _ _ A5). exact Q. }
  specialize (D A1 A5 A6 NE K3 FO). unfold decRefill in D.
  destruct (N.leb_spec (N.of_nat n) (hMsgCount h)) as [Q|Q].
  - eexists. split; [exact D|]. rewrite !ap_cons. cbn [ap fold_left]. split; [|split; [|split]].
    + eapply (base_refill C P used KU HC); eassumption.
    + apply stS_refill; [eauto|exact S].
    + unfold refillOp. cbn [apply_op]. rewrite A1. reflexivity.
    + unfold storedKeys. rewrite (refill_get C (SK p y x) root (dhpub C y) (dhpub C x) FX n _ s (wStore w) A1), A1.
      unfold refilled, grown. cbn [sRecv]. rewrite lenN_app, (lenN_keysFor C _ (dhpub C y) FX (refillCount (hMsgCount h) (numKeys (dNumKeys ra)))). unfold lenN. rewrite (so_rlen _ _ _ _ _ _ _ _ A5).
      rewrite (proj2 (N.leb_le _ _)) by exact Q. reflexivity.
  - exists []. split; [exact D|]. cbn [ap fold_left]. repeat (split; [assumption || reflexivity|]).
    unfold storedKeys, grown. rewrite A1. unfold lenN. rewrite (so_rlen _ _ _ _ _ _ _ _ A5). rewrite (proj2 (N.leb_gt _ _)) by exact Q. reflexivity.
Qed.
End Step.

Lemma skipsAll p box nonce pre txt hpriv : Forall (otherId C P p) pre -> box = boxseal C txt nonce (dhpub C (sec p)) hpriv ->
  Forall (skipsId C box nonce (dhpub C hpriv)) pre.
Proof.
  intros F ->. induction F as [|j l (ke & pub & priv & H1 & H2 & H3 & H4) F IH]; constructor; [|exact IH].
  exists ke, pub, priv. repeat (split; [assumption|]). apply H4.
Qed.
Lemma Forall2_split {A B} (R : A -> B -> Prop) l1 a l2 l : Forall2 R (l1 ++ a :: l2) l -> exists k1 b k2, l = k1 ++ b :: k2 /\ Forall2 R l1 k1 /\ R a b /\ Forall2 R l2 k2.
Proof.
  intros F. apply Forall2_app_inv_l in F as (k1 & k' & F1 & F2 & ->). inversion F2 as [|? b ? k2 F3 F4]; subst. exists k1, b, k2. auto.
Qed.
Lemma incoming_ext p g g' i hpriv h x y on os root cr : ext g g' -> incoming p g i hpriv h x y on os root cr -> incoming p g' i hpriv h x y on os root cr.
Proof.
  intros E [M1 M2 M3 M4 M5 M6 [M7 M7'] M8 M9 M10]. constructor; try assumption.
  - now apply (x_T _ _ E).
  - now apply (x_G _ _ E).
  - now apply (x_sess _ _ E).
  - destruct M6 as [Q|Q]; [left; now apply (x_sess _ _ E)|now right].
  - split; eapply ownT_ext; eassumption.
  - intros n Hn. apply (x_T _ _ E). auto.
  - intros s Hs. eapply ownT_ext; eauto.
  - intros n s Hn Hs. destruct (M10 n s Hn Hs). split; [now apply (x_sess _ _ E)|now apply (x_G _ _ E)].
Qed.
Lemma base_deliver p st g g' : ext g g' -> gSess g' p = gSess g p -> gSent g' p = gSent g p -> gT g' = gT g -> base C P p st g -> base C P p st g'.
Proof. intros E K1 K2 K3. apply base_keep; [exact E|]. constructor; try assumption. rewrite K3. auto. Qed.
Lemma receive_fails a r w nym w' ss w1 w2 hp sk mk body fk tk h rpub ra pre i post ike ipriv v ke sk' oss v1 v2 e :
  encOk C a r w nym w' ss w1 w2 hp sk mk body fk tk -> encWf C a r ss ->
  hdrOf C a r ss = Ok h -> headerPacket C h rpub (rHeaderPriv r) (rNonce r) = Ok hp ->
  dIds ra = pre ++ i :: post -> opensId C i ike ipriv -> rpub = dhpub C ipriv ->
  Forall (skipsId C (boxseal C (jprint (headerToJson h)) (rNonce r) rpub (rHeaderPriv r)) (rNonce r) (dhpub C (rHeaderPriv r))) pre ->
  decState C ra (dhpub C (rHeaderPriv r)) i h v = (Ok (ke, sk', oss), v1) ->
  decKey C i ke h sk' oss (numKeys (dNumKeys ra)) v1 = (Err e, v2) ->
  receive C ra (b64enc (rawMsg C (rHeaderPriv r) hp body)) v = (Err e, v2).
Proof.
  intros E W HH HP HD HI HRP HF DS DK.
  pose proof (hdrOf_inv _ _ _ _ _ HH W) as (_ & _ & _ & _ & _ & _ & _ & _ & _ & HW & HV & HB).
  destruct (ew_iv _ _ _ _ W) as [LI WI].
  pose proof (encOk_len _ _ _ _ _ _ _ _ _ _ _ _ _ _ _ E LI) as LH.
  pose proof (eo_body _ _ _ _ _ _ _ _ _ _ _ _ _ _ _ E) as EB.
  pose proof (sealBody_wf _ _ _ _ _ _ _ WI (encContent_wf _ _ _ _ W) (ew_pad _ _ _ _ W) EB) as WB.
  rewrite (receive_tail C ra i h (rHeaderPriv r) (rNonce r) hp body v); [|constructor; try assumption|exact WB].
  - unfold decRest. erewrite bind_ok by exact DS. cbv beta iota. unfold mbind at 1. rewrite DK. reflexivity.
  - subst rpub. exists pre, post, ike, ipriv. auto.
  - lia.
  - apply (ew_nonce _ _ _ _ W).
Qed.
Lemma reach_dec count nk : (exists k, count <= k * nk /\ k * nk <= 301) \/ (forall k, count <= k * nk -> 301 < k * nk).
Proof.
  destruct (N.eq_dec nk 0) as [->|NZ]; [destruct (N.eq_dec count 0) as [->|N]; [left; exists 0; lia|right; intros k; rewrite N.mul_0_r; lia]|].
  pose proof (N.div_mod count nk NZ) as D. pose proof (N.mod_lt count nk NZ) as M.
  set (q := count / nk) in *. set (r := count mod nk) in *. set (t := q + (if 0 <? r then 1 else 0)).
  assert (A : count <= t * nk) by (unfold t; destruct (N.ltb_spec 0 r); nia).
  destruct (N.le_gt_cases (t * nk) 301) as [L|L]; [left; exists t; auto|right]. intros k K.
  assert (t <= k) by (unfold t; destruct (N.ltb_spec 0 r); nia). nia.
Qed.
Lemma inReach_dec ra m st : inReach ra m st \/
  (storedKeys (numKeys (dNumKeys ra)) (sSess m) st <= sNum m /\ (forall k, sNum m <= k * numKeys (dNumKeys ra) -> 301 < k * numKeys (dNumKeys ra))).
Proof.
  unfold inReach. destruct (N.lt_ge_cases (sNum m) (storedKeys (numKeys (dNumKeys ra)) (sSess m) st)) as [L|L]; [left; now left|].
  destruct (reach_dec (sNum m) (numKeys (dNumKeys ra))) as [R|R]; [left; now right|right; auto].
Qed.
(* Decrypting a message under way succeeds and yields what was sent if its key is in reach, and fails otherwise;
   in both cases the invariant is kept. *)
Lemma recv_inv c g p ra l1 m l2 : inv C P c g -> noColl C P (dPriv ra :: cUsed c) -> cNet c (negb p) = l1 ++ m :: l2 -> recvOk C P p ra ->
  fresh C [dPriv ra] (cUsed c) ->
  (inReach ra m (cStore c p) /\
   exists w g', run (receive C ra (sWire m)) (cStore c p) = (Ok (pName (P (negb p)), sigText C (sArgs m)), w) /\ wOut w = encContent (sArgs m) /\
    storedKeys (numKeys (dNumKeys ra)) (sSess m) (wStore w) = grown (numKeys (dNumKeys ra)) (sNum m) (storedKeys (numKeys (dNumKeys ra)) (sSess m) (cStore c p)) /\
    inv C P (mkConv (upd (cStore c) p (wStore w)) (upd (cNet c) (negb p) (l1 ++ l2)) (dPriv ra :: cUsed c)) g') \/
  (~ inReach ra m (cStore c p) /\
   exists w g', run (receive C ra (sWire m)) (cStore c p) = (Err "msg: requested number of message keys too large", w) /\ wOut w = [] /\
    inv C P (mkConv (upd (cStore c) p (wStore w)) (upd (cNet c) (negb p) (l1 ++ m :: l2)) (dPriv ra :: cUsed c)) g').
Proof.
  intros I HC NET RO FR. set (used := dPriv ra :: cUsed c) in *. assert (KU : NoDup (map (dhpub C) used)) by exact FR.
  destruct I as [I1 I2 I3 I4 I5 I6].
  assert (T : tagsOk P used g) by (eapply tags_grow; [|exact I2]; intros z Hz; right; exact Hz).
  assert (NZ : gT g (dPriv ra) = None) by (eapply fresh_tag; [exact I2|exact FR|now left]).
  destruct (I5 (negb p)) as (ids & J1 & J2 & J3). pose proof J1 as J1'. rewrite NET in J1. apply Forall2_split in J1 as (k1 & id & k2 & EI & F1 & MO & F2).
  destruct MO as (x & y & on & os & root & cr & r & w0 & nym & w' & ss & w1 & w2 & hp & sk & mk & body & fk & tk & h & M).
  destruct (rk_ids _ _ _ _ RO) as (pre & i & post & HD & HI & HF). destruct (rk_priv _ _ _ _ RO) as [LZ WZ]. pose proof (rk_num _ _ _ _ RO) as LN.
  pose proof (incoming_of _ _ _ _ _ _ _ _ _ _ _ _ _ _ _ _ _ _ _ _ _ _ _ _ _ M HI) as IN.
  unfold run. set (v := mkWorld (cStore c p) [] []).
  destruct (recv_state used KU HC p ra i v g (rHeaderPriv r) h x y on os root cr (I3 p) (I4 p) T IN (or_introl eq_refl) NZ LZ WZ)
    as (ss1 & la & g1 & x1 & y1 & on1 & os1 & DS & PR & NS & STO).
  destruct PR as [R1 R2 R3 R4 R5 R6 R7 R8 R9 R10].
  pose proof (hdrOf_inv _ _ _ _ _ (mi_hdr _ _ _ _ _ _ _ _ _ _ _ _ _ _ _ _ _ _ _ _ _ _ _ _ _ _ M) (mi_wf _ _ _ _ _ _ _ _ _ _ _ _ _ _ _ _ _ _ _ _ _ _ _ _ _ _ M)) as (_ & U2 & _).
  pose proof (mi_num _ _ _ _ _ _ _ _ _ _ _ _ _ _ _ _ _ _ _ _ _ _ _ _ _ _ M) as NUM. pose proof (mi_id _ _ _ _ _ _ _ _ _ _ _ _ _ _ _ _ _ _ _ _ _ _ _ _ _ _ M) as ID.
  pose proof (mi_lt _ _ _ _ _ _ _ _ _ _ _ _ _ _ _ _ _ _ _ _ _ _ _ _ _ _ M) as LT. pose proof (mi_sess _ _ _ _ _ _ _ _ _ _ _ _ _ _ _ _ _ _ _ _ _ _ _ _ _ _ M) as SE.
  rewrite negb_involutive in SE.
  assert (HMC : hMsgCount h = stMsgCount ss) by exact U2.
  assert (HMN : hMsgCount h = sNum m) by congruence.
  assert (ND : ~ In (x, y, hMsgCount h) (gDel g1 (negb p))).
  { rewrite R9, HMC, <- ID. apply J3. rewrite EI. apply in_or_app. right. now left. }
  change (wStore v) with (cStore c p) in *.
  assert (EW : wStore (steps v la) = ap la (cStore c p)) by apply steps_ap. rewrite <- EW in R2, R4, R10, STO.
  assert (OP : opensId C i (initDHKey C (sec p)) (sec p)).
  { destruct HI as [[HI1 [ks HI2]] HI3]. split; [eapply pubKey_cons; exact HI2|]. split; [apply initDHKey_pub32|]. unfold priv32. rewrite HI3. cbn [initDHKey keFunc]. rewrite beq_refl. reflexivity. }
  pose proof (mi_rpub _ _ _ _ _ _ _ _ _ _ _ _ _ _ _ _ _ _ _ _ _ _ _ _ _ _ M) as RP. pose proof (mi_pkt _ _ _ _ _ _ _ _ _ _ _ _ _ _ _ _ _ _ _ _ _ _ _ _ _ _ M) as PK.
  rewrite negb_involutive in RP, PK.
  pose proof (incoming_ext _ _ _ _ _ _ _ _ _ _ _ _ R6 IN) as IN1.
  destruct (inReach_dec ra m (cStore c p)) as [IR|[OV1 OV2]].
  2:{ right. split.
      { intros [Q|(k & Q1 & Q2)]; [lia|]. specialize (OV2 k Q1). lia. }
      rewrite SE, <- STO in OV1.
      pose proof (recv_over p ra i (steps v la) g1 (rHeaderPriv r) h x y on os root cr (Some ss1) R2 IN1 NS LN) as DK. rewrite HMN in DK. specialize (DK LT OV1 OV2).
      pose proof (receive_fails (sArgs m) r w0 nym w' ss w1 w2 hp sk mk body fk tk h (dhpub C (sec p)) ra pre i post (initDHKey C (sec p)) (sec p) v (initDHKey C (sec p)) (SK p y x) (Some ss1)
        _ _ _ (mi_enc _ _ _ _ _ _ _ _ _ _ _ _ _ _ _ _ _ _ _ _ _ _ _ _ _ _ M) (mi_wf _ _ _ _ _ _ _ _ _ _ _ _ _ _ _ _ _ _ _ _ _ _ _ _ _ _ M) (mi_hdr _ _ _ _ _ _ _ _ _ _ _ _ _ _ _ _ _ _ _ _ _ _ _ _ _ _ M)
        PK HD OP eq_refl (skipsAll p _ _ _ _ _ HF eq_refl) DS DK) as RE.
      rewrite <- (mi_wire _ _ _ _ _ _ _ _ _ _ _ _ _ _ _ _ _ _ _ _ _ _ _ _ _ _ M) in RE.
      eexists. exists g1. split; [exact RE|]. split.
      { rewrite (traced_out _ _ _ _ _ (traced_decState C ra _ i h) DS decOp_out). reflexivity. }
      constructor; cbn [cUsed cStore cNet].
      - exact KU.
      - exact R5.
      - intros q. match goal with |- context[upd (cStore c) p ?s] => destruct (upd_cases (cStore c) p s q) as [[-> ->]|[-> ->]] end; [exact R2|].
        eapply base_keep; [exact R6|exact R7|apply I3].
      - intros q. match goal with |- context[upd (cStore c) p ?s] => destruct (upd_cases (cStore c) p s q) as [[-> ->]|[-> ->]] end.
        + unfold stInv. rewrite R10. exists x1, y1, on1, os1. auto.
        + eapply stInv_keep; [exact R6|exact R7|apply I4].
      - intros q. rewrite R9. destruct (upd_cases (cNet c) (negb p) (l1 ++ m :: l2) q) as [[-> ->]|[-> ->]].
        + rewrite <- NET. exists ids. split; [|auto]. eapply Forall2_mono; [|exact J1']. intros a b. apply msgOk_ext. exact R6.
        + destruct (I5 (negb (negb p))) as (ids' & L1 & L2 & L3). exists ids'. split; [|auto]. eapply Forall2_mono; [|exact L1]. intros a b. apply msgOk_ext. exact R6.
      - intros q. rewrite R8, R9. apply I6. }
  left. split; [exact IR|].
  assert (exists k, storedKeys (numKeys (dNumKeys ra)) (SK p y x) (wStore (steps v la)) <= hMsgCount h -> hMsgCount h <= k * numKeys (dNumKeys ra) /\ k * numKeys (dNumKeys ra) <= 301) as [k K12].
  { rewrite STO, HMN, <- SE. destruct IR as [IR|[k IR]]; [exists 0; intros Q; lia|exists k; auto]. }
  destruct (recv_key used KU HC p ra i (steps v la) g1 (rHeaderPriv r) h x y on os root cr k ss1 x1 y1 on1 os1 R2 R5 IN1 NS ND K12) as (lb & DK & B2 & S2 & ST2 & GR); try assumption.
  subst ids. rewrite STO, HMN, <- SE in GR.
  pose proof (mi_gp _ _ _ _ _ _ _ _ _ _ _ _ _ _ _ _ _ _ _ _ _ _ _ _ _ _ M) as GP. pose proof (mi_mk _ _ _ _ _ _ _ _ _ _ _ _ _ _ _ _ _ _ _ _ _ _ _ _ _ _ M) as MK.
  rewrite HMC, <- MK in DK.
  pose proof (receive_encrypted C (sArgs m) r w0 nym w' ss w1 w2 hp sk mk body fk tk h (dhpub C (sec p)) ra pre i post (initDHKey C (sec p)) (sec p) v (initDHKey C (sec p)) (SK p y x) (Some ss1)
    _ _ (mi_enc _ _ _ _ _ _ _ _ _ _ _ _ _ _ _ _ _ _ _ _ _ _ _ _ _ _ M) (mi_wf _ _ _ _ _ _ _ _ _ _ _ _ _ _ _ _ _ _ _ _ _ _ _ _ _ _ M) (mi_hdr _ _ _ _ _ _ _ _ _ _ _ _ _ _ _ _ _ _ _ _ _ _ _ _ _ _ M)
    RP PK HD OP eq_refl (skipsAll p _ _ _ _ _ HF eq_refl) DS DK) as RE.
  rewrite <- (mi_wire _ _ _ _ _ _ _ _ _ _ _ _ _ _ _ _ _ _ _ _ _ _ _ _ _ _ M) in RE.
  destruct (mi_from _ _ _ _ _ _ _ _ _ _ _ _ _ _ _ _ _ _ _ _ _ _ _ _ _ _ M) as [[MF1 _] _]. rewrite MF1 in RE.
  eexists. set (g2 := gDeliver (negb p) id g1). exists g2. split; [exact RE|]. split.
  { rewrite steps_out. cbn [flat_map out_of]. rewrite !app_nil_r.
    rewrite (traced_out _ _ _ _ _ (traced_decKey C i _ h _ _ _) DK keyOp_out), (traced_out _ _ _ _ _ (traced_decState C ra _ i h) DS decOp_out). reflexivity. }
  assert (WS : wStore (steps (steps (steps v la) lb) [OOutput (encContent (sArgs m)); ODelMsgKey (SK p y x) false (stMsgCount ss)]) =
    apply_op (ODelMsgKey (SK p y x) false (stMsgCount ss)) (ap lb (wStore (steps v la)))).
  { rewrite steps_ap, !ap_cons, steps_ap. reflexivity. }
  rewrite WS. clear RE WS. split.
  { rewrite SE in *. rewrite <- GR. destruct (b_sess _ _ _ _ _ B2 _ _ NS) as (s & root' & cr' & n & A1 & _ & _ & _ & A5 & _).
    unfold storedKeys. rewrite (del_apply _ _ _ _ _ A1), A1. cbn [sessions]. rewrite mget_mset_same. unfold delKey. cbn [sRecv]. apply set_nth_lenN. }
  assert (E2 : ext g1 g2) by apply ext_deliver. assert (EX : ext g g2) by (eapply ext_trans; eassumption).
  assert (B3 : base C P p (ap lb (wStore (steps v la))) g2) by (eapply base_deliver; [exact E2|reflexivity..|exact B2]).
  assert (T3 : tagsOk P used g2) by (destruct R5; constructor; assumption).
  assert (D2 : gDel g2 (negb p) = id :: gDel g1 (negb p)) by (cbn [g2 gDeliver gDel]; apply upd_same).
  assert (NS2 : In (y, x) (gSess g2 p)) by exact NS.
  assert (B4 : base C P p (apply_op (ODelMsgKey (SK p y x) false (stMsgCount ss)) (ap lb (wStore (steps v la)))) g2).
  { apply (base_del C P used KU HC); try assumption. rewrite D2, ID. now left. }
  assert (KP : keep (negb p) g g2) by (eapply keep_trans; [exact R7|apply keep_deliver]).
  constructor; cbn [cUsed cStore cNet].
  - exact KU.
  - exact T3.
  - intros q. match goal with |- context[upd (cStore c) p ?s] => destruct (upd_cases (cStore c) p s q) as [[-> ->]|[-> ->]] end; [exact B4|].
    eapply base_keep; [exact EX|exact KP|apply I3].
  - intros q. match goal with |- context[upd (cStore c) p ?s] => destruct (upd_cases (cStore c) p s q) as [[-> ->]|[-> ->]] end.
    + unfold stInv. destruct (b_sess _ _ _ _ _ B3 _ _ NS2) as (s & root' & cr' & n & A1 & _).
      rewrite (del_apply _ _ _ _ _ A1). cbn [states]. rewrite ST2, R10. exists x1, y1, on1, os1. split.
      * eapply stG_keep; [exact E2|constructor; auto|exact R3].
      * rewrite <- (del_apply _ _ _ _ _ A1). eapply stS_del; eassumption.
    + eapply stInv_keep; [exact EX|exact KP|apply I4].
  - intros q. destruct (upd_cases (cNet c) (negb p) (l1 ++ l2) q) as [[-> ->]|[-> ->]].
    + exists (k1 ++ k2). split; [|split].
      * apply Forall2_app; eapply Forall2_mono; [|exact F1| |exact F2]; intros a b; apply msgOk_ext; exact EX.
      * eapply NoDup_remove_1; exact J2.
      * intros j Q D. rewrite D2 in D. destruct D as [<-|D]; [apply NoDup_remove_2 in J2; contradiction|].
        rewrite R9 in D. apply (J3 j); [|exact D]. apply in_app_or in Q. apply in_or_app. destruct Q; [now left|right; now right].
    + destruct (I5 (negb (negb p))) as (ids' & L1 & L2 & L3). exists ids'. split; [eapply Forall2_mono; [|exact L1]; intros a b; apply msgOk_ext; exact EX|]. split; [exact L2|].
      intros j Q D. apply (L3 j Q). cbn [g2 gDeliver gDel] in D. rewrite upd_other in D. rewrite R9 in D. exact D.
  - intros q j Q. cbn [g2 gDeliver gDel] in Q. change (gSent g2 q) with (gSent g1 q). rewrite R8.
    destruct (upd_cases (gDel g1) (negb p) (id :: gDel g1 (negb p)) q) as [[-> E]|[-> E]]; rewrite E in Q; clear E.
    + destruct Q as [<-|Q]; [apply (mi_in _ _ _ _ _ _ _ _ _ _ _ _ _ _ _ _ _ _ _ _ _ _ _ _ _ _ M)|]. rewrite R9 in Q. now apply I6.
    + rewrite R9 in Q. now apply I6.
Qed.
End Recv.
