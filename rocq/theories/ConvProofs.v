(* Every step of a conversation keeps the invariant, and every message under way can be decrypted. *)
From Verif Require Import Base Base64Model Base64Proofs CodecModel CodecProofs JsonModel JsonProofs Maps CryptoModel StoreModel KeysModel KeysProofs MsgFormatModel MsgFormatProofs HeaderModel HeaderProofs ProtoModel ProtoProofs ProtoFirst ConvModel ConvSteps ConvInv.
Local Open Scope N_scope.

Section Proofs.
Variable C : Crypto.
Variable P : bool -> party.
Notation sec := (sec P).
Notation SK := (SK C P).
Notation FX := (FX C P).
Notation rootN := (rootN C P).

Record msgIs (p : bool) (g : ghost) (m : sent) (i : msgId) (x y : bytes) (on os : option bytes) (root : bytes) (cr : bool)
    (r : encRnd) (w : world) (nym : bytes) (w' : world) (ss : state) (w1 w2 : world) (hp sk mk body fk tk : bytes) (h : header) : Prop := {
  mi_enc : encOk C (sArgs m) r w nym w' ss w1 w2 hp sk mk body fk tk;
  mi_wf : encWf C (sArgs m) r ss;
  mi_hdr : hdrOf C (sArgs m) r ss = Ok h;
  mi_pkt : headerPacket C h (dhpub C (sec (negb p))) (rHeaderPriv r) (rNonce r) = Ok hp;
  mi_rpub : publicKey (eTo (sArgs m)) = Ok (dhpub C (sec (negb p)));
  mi_wire : sWire m = b64enc (rawMsg C (rHeaderPriv r) hp body);
  mi_num : sNum m = stMsgCount ss;
  mi_lt : sNum m < 2 ^ 63;
  mi_sess : sSess m = SK (negb p) y x;
  mi_from : isIdent C (P p) (eFrom (sArgs m));
  mi_to : isUid C (P (negb p)) (eTo (sArgs m));
  mi_x : stSenderPub ss = initDHKey C x;
  mi_y : stRecipTemp ss = initDHKey C y;
  mi_on : stNextSender ss = option_map (initDHKey C) on;
  mi_os : stNextSeen ss = option_map (initDHKey C) os;
  mi_thdr : gT g (rHeaderPriv r) = Some THdr;
  mi_id : i = (x, y, stMsgCount ss);
  mi_gp : gp g p x y = Some (root, cr);
  mi_mk : mk = msgKeyVal C (chainAt C root (N.to_nat (stMsgCount ss))) (dhpub C y) FX;
  mi_in : In i (gSent g p);
  mi_cur : In (x, y) (gSess g p);
  mi_peer : In (y, x) (gSess g (negb p)) \/ kiCond C P g p x y;
  mi_tags : ownT g p x /\ ownT g (negb p) y;
  mi_next : forall n, on = Some n -> gT g n = Some (TSess p);
  mi_seen : forall s, os = Some s -> ownT g (negb p) s;
  mi_both : forall n s, on = Some n -> os = Some s -> In (n, s) (gSess g p) /\ gp g p n s = Some (rootN p n s (Some (sha512 C root)), p) }.
Definition msgOk (p : bool) (g : ghost) (m : sent) (i : msgId) : Prop :=
  exists x y on os root cr r w nym w' ss w1 w2 hp sk mk body fk tk h, msgIs p g m i x y on os root cr r w nym w' ss w1 w2 hp sk mk body fk tk h.
Lemma msgOk_ext p g g' m i : ext g g' -> msgOk p g m i -> msgOk p g' m i.
Proof.
  intros E (x & y & on & os & root & cr & r & w & nym & w' & ss & w1 & w2 & hp & sk & mk & body & fk & tk & h & M).
  exists x, y, on, os, root, cr, r, w, nym, w', ss, w1, w2, hp, sk, mk, body, fk, tk, h. destruct M. constructor; try assumption.
  - now apply (x_T _ _ E).
  - now apply (x_G _ _ E).
  - now apply (x_sent _ _ E).
  - now apply (x_sess _ _ E).
  - destruct mi_peer0 as [H|H]; [left; now apply (x_sess _ _ E)|right; eapply kiCond_ext; eassumption].
  - destruct mi_tags0. split; eapply ownT_ext; eassumption.
  - intros n Hn. apply (x_T _ _ E). auto.
  - intros s Hs. eapply ownT_ext; eauto.
  - intros n s Hn Hs. destruct (mi_both0 n s Hn Hs). split; [now apply (x_sess _ _ E)|now apply (x_G _ _ E)].
Qed.
Record inv (c : conv) (g : ghost) : Prop := {
  i_used : NoDup (map (dhpub C) (cUsed c));
  i_tags : tagsOk P (cUsed c) g;
  i_base : forall p, base C P p (cStore c p) g;
  i_st : forall p, stInv C P p (cStore c p) g;
  i_net : forall p, exists ids, Forall2 (msgOk p g) (cNet c p) ids /\ NoDup ids /\ (forall i, In i ids -> ~ In i (gDel g p));
  i_del : forall p, incl (gDel g p) (gSent g p) }.

Lemma tags_grow used used' g : incl used used' -> tagsOk P used g -> tagsOk P used' g.
Proof. intros I [T1 T2 T3 T4]. constructor; auto. intros k t H. eapply I, T1, H. Qed.
Lemma fresh_in l used z : fresh C l used -> In z l -> ~ In z used.
Proof.
  unfold fresh. rewrite map_app. intros N I J. apply (in_map (dhpub C)) in I. apply (in_map (dhpub C)) in J.
  revert N I J. generalize (map (dhpub C) l) (map (dhpub C) used) (dhpub C z). clear. intros a b z N I J.
  induction a as [|y a IH]; [destruct I|]. cbn [app] in N. inversion N as [|? ? N1 N2]; subst. destruct I as [->|I]; [|auto].
  apply N1. apply in_or_app. auto.
Qed.
Lemma fresh_tag used g l z : tagsOk P used g -> fresh C l used -> In z l -> gT g z = None.
Proof.
  intros T F I. destruct (gT g z) as [t|] eqn:E; [|reflexivity]. exfalso. eapply fresh_in; [exact F|exact I|]. eapply t_in; eassumption.
Qed.
Lemma nodup_tags {A} g (l : list bytes) (t : list (option tag)) (f : bytes -> A) : map (gT g) l = t -> NoDup t -> NoDup l.
Proof. intros E N. apply (NoDup_map_inv (gT g)). rewrite E. exact N. Qed.

Section Step.
Variable used : list bytes.
Hypothesis KU : NoDup (map (dhpub C) used).
Hypothesis HC : noColl C P used.
Lemma nodup_pub l : NoDup l -> incl l used -> NoDup (map (dhpub C) l).
Proof.
  intros N. induction N as [|a l Na N IH]; intros I; [constructor|]. cbn [map]. constructor.
  - intros H. apply in_map_iff in H as (b & E & Hb). apply (pub_inj C used KU) in E; [subst; contradiction|apply I; now right|apply I; now left].
  - apply IH. intros z Hz. apply I. now right.
Qed.
Lemma five a b c d e : NoDup [a; b; c; d; e] -> incl [a; b; c; d; e] used -> fiveKeys C (dhpub C a) b c d e.
Proof. intros N I. exact (nodup_pub _ N I). Qed.
Lemma five_tags g hp p x y : tagsOk P used g -> In hp used -> In x used -> In y used -> ownT g p x \/ gT g x = None ->
  ownT g (negb p) y -> (gT g hp = Some THdr \/ gT g hp = None) -> hp <> x -> fiveKeys C (dhpub C hp) (sec p) x (sec (negb p)) y.
Proof.
  intros T U1 U2 U3 X Y H N. pose proof (t_stat _ _ _ T p) as S1. pose proof (t_stat _ _ _ T (negb p)) as S2. apply five.
  - repeat (apply NoDup_cons; [cbn [In]; intros F|]); try apply NoDup_nil;
      repeat match goal with F : _ \/ _ |- _ => destruct F as [F|F] end; try contradiction; try congruence;
      unfold ownT in *; repeat match goal with F : _ \/ _ |- _ => destruct F as [F|F] end; try congruence;
      match goal with F : ?a = ?b |- _ => try (rewrite F in *) end; destruct p; cbn [negb] in *; congruence.
  - intros k [<-|[<-|[<-|[<-|[<-|[]]]]]]; try assumption; eapply t_in; eassumption.
Qed.

(* ---- sending ---- *)
Record prepared (p : bool) (g : ghost) (w w1 : world) (l : list op) (g1 : ghost) (ss : state) (x y : bytes) (on os : option bytes) : Prop := {
  pr_w : w1 = steps w l;
  pr_base : base C P p (ap l (wStore w)) g1;
  pr_G : stG C P p g1 ss x y on os;
  pr_S : stS C P p (ap l (wStore w)) (stMsgCount ss) x y on;
  pr_tags : tagsOk P used g1;
  pr_ext : ext g g1;
  pr_keep : keep (negb p) g g1;
  pr_sent : gSent g1 = gSent g;
  pr_del : gDel g1 = gDel g;
  pr_state : mget (stateKey C P p) (states (ap l (wStore w))) = Some ss }.
Lemma ap_cons o l st : ap (o :: l) st = ap l (apply_op o st).
Proof. reflexivity. Qed.
Lemma send_first p a r w g : base C P p (wStore w) g -> tagsOk P used g -> sendOk C P p a r ->
  In (rHeaderPriv r) used -> In (rSessPriv r) used -> gT g (rHeaderPriv r) = None -> gT g (rSessPriv r) = None -> rHeaderPriv r <> rSessPriv r ->
  eStatus a = StatusReset \/ mget (stateKey C P p) (states (wStore w)) = None ->
  (mget (pName (P (negb p))) (pubKEs (wStore w)) = None /\ exists e v, encState C a r w = (Err e, v)) \/
  exists nym ss w1 l g1 x y on os, encState C a r w = (Ok (nym, ss), w1) /\ prepared p g w w1 l g1 ss x y on os /\ stMsgCount ss = 0 /\
    gT g1 (rHeaderPriv r) = None /\ (gT g1 (rSessPriv r) = Some (TSess p)).
Proof.
  intros B T SO U1 U2 N1 N2 NE ST. destruct (sk_from _ _ _ _ _ SO) as [[F1 [ks F2]] F3]. destruct (sk_to _ _ _ _ _ SO) as [T1 [ks' T2]].
  destruct (sk_sess _ _ _ _ _ SO) as [LS WS]. fold (sec p) in *. fold (sec (negb p)) in *.
  destruct (mget (pName (P (negb p))) (pubKEs (wStore w))) as [[k nym]|] eqn:PK.
  2:{ left. split; [reflexivity|]. unfold encState. rewrite (pubKey_cons _ _ _ F2), (pubKey_cons _ _ _ T2). do 4 rewrite ?lift_bind, ?initDHKey_pub32.
      match goal with |- exists e v, mbind ?m ?f w = _ => assert (E : m w = (Ok None, w)) end.
      { destruct (eStatus a =? StatusReset) eqn:E; [reflexivity|]. destruct ST as [S|S]; [rewrite S in E; discriminate|]. unfold getSessionState, ask.
        unfold stateKey in S. fold (sec p) in S. fold (sec (negb p)) in S. rewrite S. reflexivity. }
      erewrite bind_ok by exact E. cbv iota. unfold mbind at 1. unfold getPublicKeyEntry. rewrite T1, PK. eexists _, _. reflexivity. }
  right. destruct (b_pub _ _ _ _ _ B _ _ PK) as (kb & IK & ->).
  assert (TK : gT g kb = Some (TKI (negb p))) by (now apply (t_ki _ _ _ T)).
  assert (UK : In kb used) by (eapply t_in; eassumption).
  set (x := rSessPriv r) in *. set (g1 := gTag x (TSess p) g). set (g2 := gNew p x kb (rootN p x kb None, p) g1).
  assert (TG1 : tagsOk P used g1) by (apply tags_add; try assumption; intros; discriminate).
  assert (X1 : gT g1 x = Some (TSess p)) by (cbn [g1 gTag gT]; now rewrite beq_refl).
  assert (E1 : ext g g1) by (now apply ext_tag).
  assert (K1 : gT g1 kb = Some (TKI (negb p))) by (now apply (x_T _ _ E1)).
  assert (B1 : base C P p (apply_op (addKey C x (eCleanup a)) (wStore w)) g1) by (apply (base_addKey C P used KU HC); assumption).
  assert (NG : gp g1 p x kb = None).
  { destruct (gp g1 p x kb) as [v|] eqn:EG; [|reflexivity]. exfalso. change (gp g p x kb = Some v) in EG. exact (t_G _ _ _ T _ _ _ _ EG N2). }
  assert (NS : ~ In (x, kb) (gSess g1 p)).
  { intros I. change (In (x, kb) (gSess g p)) in I. destruct (b_tags _ _ _ _ _ B _ _ I) as [[Q|Q] _]; congruence. }
  assert (NS' : forall z i, ~ In (x, z, i) (gSent g p)).
  { intros z i I. apply (b_sent _ _ _ _ _ B) in I. destruct (b_tags _ _ _ _ _ B _ _ I) as [[Q|Q] _]; congruence. }
  assert (B2 : base C P p (apply_op (newSess C (sec p) (sec (negb p)) x kb FX (rootN p x kb None) (numKeys (eNumKeys a))) (apply_op (addKey C x (eCleanup a)) (wStore w))) g2).
  { apply (base_newSess C P used KU HC); try assumption; [now right|now left|now left|apply rootN_len|apply rootN_wf|apply numKeys_pos|].
    intros i. apply NS'. }
  assert (FE : firstEnc C a r (wStore w) (sec p) (sec (negb p)) kb nym).
  { constructor; try (eexists; eassumption); try assumption.
    - rewrite T1. exact PK.
    - apply (sess_unknown C P used KU HC p (wStore w) g); try assumption.
    - apply five_tags with g; auto. now left.
    - apply numKeys_pos. }
  pose proof (encState_first C a r w (sec p) (sec (negb p)) kb nym FE) as ES.
  assert (FXE : identityFix C (uIdentity (idUid (eFrom a))) (uIdentity (eTo a)) = FX) by (rewrite F1, T1; apply FX_eq).
  unfold encFirstOps in ES. rewrite FXE in ES. fold x in ES. change (rootOf C (sec p) x (sec (negb p)) kb None) with (rootN p x kb None) in ES.
  change (calcStateKey C (dhpub C (sec p)) (dhpub C (sec (negb p)))) with (stateKey C P p) in ES.
  eexists nym, _, _, _, g2, x, kb, None, None. split; [exact ES|]. split; [|split; [reflexivity|split; [|exact X1]]].
  - constructor; try reflexivity.
    + rewrite !ap_cons. cbn [ap fold_left]. apply base_state. exact B2.
    + constructor; try reflexivity; cbn [ssFirst stSessCount stMsgCount]; try lia.
      * cbn [g2 gNew gSess]. rewrite upd_same. now left.
      * right. split; [exact IK|]. apply gp_new.
      * intros i I. exfalso. exact (NS' _ _ I).
      * discriminate.
      * discriminate.
    + constructor; [intros; cbn [ssFirst stMsgCount]; lia|discriminate].
    + apply tags_new; [exact TG1|now right|now left].
    + eapply ext_trans; [exact E1|]. apply ext_new. now left.
    + eapply keep_trans; [apply keep_tag|apply keep_new]. intros Q. injection Q. destruct p; discriminate.
    + rewrite !ap_cons. cbn [ap fold_left apply_op states]. apply mget_mset_same.
  - cbn [g2 gNew gT g1 gTag]. destruct (beqP (rHeaderPriv r) x); [congruence|exact N1].
Qed.
Lemma send_cont p a r w g ss : base C P p (wStore w) g -> tagsOk P used g -> sendOk C P p a r -> stInv C P p (wStore w) g ->
  In (rSessPriv r) used -> gT g (rSessPriv r) = None -> rHeaderPriv r <> rSessPriv r -> gT g (rHeaderPriv r) = None ->
  eStatus a <> StatusReset -> mget (stateKey C P p) (states (wStore w)) = Some ss ->
  exists nym ss' w1 l g1 x y on os, encState C a r w = (Ok (nym, ss'), w1) /\ prepared p g w w1 l g1 ss' x y on os /\ stMsgCount ss' = stMsgCount ss /\
    gT g1 (rHeaderPriv r) = None.
Proof.
  intros B T SO SI U2 N2 NE N1 SR MS. destruct (sk_from _ _ _ _ _ SO) as [[F1 [ks F2]] F3]. destruct (sk_to _ _ _ _ _ SO) as [T1 [ks' T2]].
  destruct (sk_sess _ _ _ _ _ SO) as [LS WS]. fold (sec p) in *. fold (sec (negb p)) in *.
  unfold stInv in SI. rewrite MS in SI. destruct SI as (x & y & on & os & G & S).
  destruct (encState_cont C a r w (sec p) (sec (negb p)) ss ks ks' F2 T2 SR MS) as (nym & ES).
  change (calcStateKey C (dhpub C (sec p)) (dhpub C (sec (negb p)))) with (stateKey C P p) in ES. set (z := rSessPriv r) in *.
  destruct (proposes a r ss) eqn:PR.
  2:{ exists nym, ss, w, [], g, x, y, on, os. split; [exact ES|]. split; [|split; [reflexivity|exact N1]].
      constructor; try reflexivity; try assumption; [apply ext_refl|apply keep_refl]. }
  assert (ON : on = None).
  { unfold proposes in PR. rewrite (k_next _ _ _ _ _ _ _ _ _ G) in PR. destruct on; [|reflexivity]. cbn [option_map] in PR. rewrite andb_false_r in PR. discriminate. }
  assert (OS : os = None).
  { destruct os as [s|]; [|reflexivity]. exfalso. destruct (k_seenT _ _ _ _ _ _ _ _ _ G s eq_refl) as (n & root & cr & Q & _). congruence. }
  subst on os. set (g1 := gTag z (TSess p) g). assert (E1 : ext g g1) by (now apply ext_tag).
  assert (X1 : gT g1 z = Some (TSess p)) by (cbn [g1 gTag gT]; now rewrite beq_refl).
  assert (TG1 : tagsOk P used g1) by (apply tags_add; try assumption; intros; discriminate).
  assert (B1 : base C P p (apply_op (addKey C z (eCleanup a)) (wStore w)) g1) by (apply (base_addKey C P used KU HC); assumption).
  assert (NZ : forall v, ~ In (z, v) (gSess g p)) by (intros v I; destruct (b_tags _ _ _ _ _ B _ _ I) as [[Q|Q] _]; congruence).
  eexists nym, _, _, _, g1, x, y, (Some z), None. split; [exact ES|]. split; [|split; [reflexivity|]].
  - constructor; try reflexivity; try assumption.
    + rewrite !ap_cons. cbn [ap fold_left]. apply base_state. exact B1.
    + destruct G as [S1 S2 S3 S4 S5 S6 S7 S8 S9 S10 S11]. constructor; try assumption; try reflexivity.
      * intros n Q. injection Q as <-. split; [exact X1|]. split; [|split].
        -- intros Q. destruct (b_tags _ _ _ _ _ B _ _ S7) as [[R|R] _]; congruence.
        -- intros v I. exfalso. exact (NZ v I).
        -- intros v i I. exact (NZ v (b_sent _ _ _ _ _ B _ _ _ I)).
      * discriminate.
    + rewrite !ap_cons. cbn [ap fold_left]. apply stS_state.
      destruct S as [S1 S2]. constructor; [exact S1|]. intros n Q. injection Q as <-. eexists. split; [apply addKey_get|]. cbn [skJson skPriv]. auto.
    + apply keep_tag. intros Q. injection Q. destruct p; discriminate.
    + rewrite !ap_cons. cbn [ap fold_left apply_op states]. apply mget_mset_same.
  - cbn [g1 gTag gT]. destruct (beqP (rHeaderPriv r) z); [congruence|exact N1].
Qed.
Lemma numOf_reset p a st : eStatus a = StatusReset -> numOf C P p a st = 0.
Proof. intros H. unfold numOf. rewrite H. reflexivity. Qed.
Lemma send_state p a r w g : base C P p (wStore w) g -> tagsOk P used g -> sendOk C P p a r -> stInv C P p (wStore w) g ->
  In (rHeaderPriv r) used -> In (rSessPriv r) used -> gT g (rHeaderPriv r) = None -> gT g (rSessPriv r) = None -> rHeaderPriv r <> rSessPriv r ->
  (mget (pName (P (negb p))) (pubKEs (wStore w)) = None /\ (eStatus a = StatusReset \/ mget (stateKey C P p) (states (wStore w)) = None) /\
     exists e v, encState C a r w = (Err e, v)) \/
  exists nym ss w1 l g1 x y on os, encState C a r w = (Ok (nym, ss), w1) /\ prepared p g w w1 l g1 ss x y on os /\
    stMsgCount ss = numOf C P p a (wStore w) /\ gT g1 (rHeaderPriv r) = None.
Proof.
  intros B T SO SI U1 U2 N1 N2 NE. destruct (N.eq_dec (eStatus a) StatusReset) as [SR|SR].
  - destruct (send_first p a r w g B T SO U1 U2 N1 N2 NE (or_introl SR)) as [[Q1 Q2]|(nym & ss & w1 & l & g1 & x & y & on & os & Q1 & Q2 & Q3 & Q4 & Q5)].
    + left. auto.
    + right. exists nym, ss, w1, l, g1, x, y, on, os. rewrite numOf_reset by exact SR. auto.
  - destruct (mget (stateKey C P p) (states (wStore w))) as [ss|] eqn:MS.
    + right. destruct (send_cont p a r w g ss B T SO SI U2 N2 NE N1 SR MS) as (nym & ss' & w1 & l & g1 & x & y & on & os & Q1 & Q2 & Q3 & Q4).
      exists nym, ss', w1, l, g1, x, y, on, os. unfold numOf. rewrite MS. apply N.eqb_neq in SR. rewrite SR. auto.
    + destruct (send_first p a r w g B T SO U1 U2 N1 N2 NE (or_intror MS)) as [[Q1 Q2]|(nym & ss & w1 & l & g1 & x & y & on & os & Q1 & Q2 & Q3 & Q4 & Q5)].
      * left. auto.
      * right. exists nym, ss, w1, l, g1, x, y, on, os. unfold numOf. rewrite MS. destruct (_ =? _); auto.
Qed.
Lemma send_key p a r w g ss x y on os : base C P p (wStore w) g -> tagsOk P used g -> sendOk C P p a r ->
  stG C P p g ss x y on os -> stS C P p (wStore w) (stMsgCount ss) x y on ->
  exists root cr l s, encKey C a ss w = (Ok (SK p x y, msgKeyVal C (chainAt C root (N.to_nat (stMsgCount ss))) (dhpub C y) FX), steps w l) /\
    gp g p x y = Some (root, cr) /\ base C P p (ap l (wStore w)) g /\ mget (SK p x y) (sessions (ap l (wStore w))) = Some s /\
    stMsgCount ss < lenN (sSend s) /\ stS C P p (ap l (wStore w)) (stMsgCount ss) x y on.
Proof.
  intros B T SO G S. destruct (sk_from _ _ _ _ _ SO) as [[F1 [ks F2]] F3]. destruct (sk_to _ _ _ _ _ SO) as [T1 [ks' T2]].
  fold (sec p) in *. fold (sec (negb p)) in *.
  destruct (b_sess _ _ _ _ _ B x y (k_cur _ _ _ _ _ _ _ _ _ G)) as (s & root & cr & n & A1 & A2 & A3 & A4 & A5 & A6 & A7 & A8).
  pose proof (s_count _ _ _ _ _ _ _ _ S s A1) as LC. pose proof (so_slen _ _ _ _ _ _ _ _ A5) as LS.
  assert (FXE : identityFix C (uIdentity (idUid (eFrom a))) (uIdentity (eTo a)) = FX) by (rewrite F1, T1; apply FX_eq).
  pose proof (encKey_cont C a ss w (sec p) (sec (negb p)) x y s root n ks ks' F2 T2 (k_send _ _ _ _ _ _ _ _ _ G) (k_temp _ _ _ _ _ _ _ _ _ G) A3 A4) as EK.
  cbv zeta in EK. rewrite FXE in EK. change (sessKeyOf C (idHash C (sec p)) (idHash C (sec (negb p))) (dhpub C x) (dhpub C y)) with (SK p x y) in EK.
  specialize (EK A1 A5). unfold lenN in LC. rewrite LS in LC. specialize (EK LC).
  assert (NE : stMsgCount ss < N.of_nat n -> nthN (stMsgCount ss) (sSend s) <> []).
  { intros H F. rewrite nthN_to_nat in F. apply A7 in F; [|lia]. rewrite N2Nat.id in F. apply (k_sent _ _ _ _ _ _ _ _ _ G) in F. lia. }
  specialize (EK NE). unfold encRefill in EK.
  destruct (N.leb_spec (N.of_nat n) (stMsgCount ss)) as [Q|Q].
  - pose proof (numKeys_pos (eNumKeys a)). set (m := N.to_nat (numKeys (eNumKeys a))) in *.
    eexists root, cr, _, _. split; [exact EK|]. split; [exact A2|]. rewrite !ap_cons. cbn [ap fold_left]. split; [|split; [|split]].
    + apply (base_refill C P used KU HC p (wStore w) g x y s root cr n m); try assumption. apply (k_cur _ _ _ _ _ _ _ _ _ G).
    + apply refill_get. exact A1.
    + cbn [refilled sSend]. rewrite lenN_app. unfold lenN. rewrite keysFor_len, LS. unfold m. lia.
    + apply stS_refill; [eauto|exact S].
  - exists root, cr, [], s. split; [exact EK|]. split; [exact A2|]. cbn [ap fold_left]. split; [exact B|]. split; [exact A1|]. split; [unfold lenN; rewrite LS; lia|exact S].
Qed.
Lemma encWf_of p a r g ss x y on os : sendOk C P p a r -> stG C P p g ss x y on os -> encWf C a r ss.
Proof.
  intros SO G. destruct (sk_from _ _ _ _ _ SO) as [[F1 [ks F2]] F3]. destruct (sk_to _ _ _ _ _ SO) as [T1 [ks' T2]]. destruct SO, G.
  constructor; try assumption.
  - exists (initDHKey C (sec p)), ks. split; [exact F2|]. eexists; reflexivity.
  - exists (initDHKey C (sec (negb p))), ks'. split; [exact T2|]. eexists; reflexivity.
  - eexists; eassumption.
  - eexists; eassumption.
  - rewrite k_next. destruct on; [eexists; reflexivity|exact I].
  - rewrite k_seen. destruct os; [eexists; reflexivity|exact I].
Qed.
End Step.
End Proofs.
