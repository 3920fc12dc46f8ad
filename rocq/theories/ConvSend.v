(* Sending keeps the invariant of a conversation. *)
From Verif Require Import Base Base64Model Base64Proofs CodecModel CodecProofs JsonModel JsonProofs Maps CryptoModel StoreModel KeysModel KeysProofs MsgFormatModel MsgFormatProofs HeaderModel HeaderProofs ProtoModel ProtoProofs ProtoFirst ConvModel ConvSteps ConvInv ConvProofs.
Local Open Scope N_scope.

Section Send.
Variable C : Crypto.
Variable P : bool -> party.
Notation sec := (sec P).
Notation SK := (SK C P).
Notation FX := (FX C P).
Notation rootN := (rootN C P).
Lemma okpair {A B} (a b : A) (c d : B) : (Ok a, c) = (Ok b, d) -> a = b /\ c = d.
Proof. intros H. injection H. auto. Qed.
Lemma pair_inj {A B} (a b : A) (c d : B) : (a, c) = (b, d) -> a = b /\ c = d.
Proof. intros H. injection H. auto. Qed.
Lemma upd_cases {A} (f : bool -> A) p x q : (q = p /\ upd f p x q = x) \/ (q = negb p /\ upd f p x q = f (negb p)).
Proof.
  destruct (Bool.bool_dec q p) as [->|N]; [left; split; [reflexivity|apply upd_same]|]. right.
  assert (q = negb p) as -> by (destruct p, q; cbn [negb]; congruence). split; [reflexivity|apply upd_other].
Qed.
Lemma Forall2_snoc {A B} (R : A -> B -> Prop) l l' a b : Forall2 R l l' -> R a b -> Forall2 R (l ++ [a]) (l' ++ [b]).
Proof. intros F H. apply Forall2_app; [exact F|]. constructor; [exact H|constructor]. Qed.
Lemma Forall2_mono {A B} (R S : A -> B -> Prop) l l' : (forall a b, R a b -> S a b) -> Forall2 R l l' -> Forall2 S l l'.
Proof. intros H F. induction F; constructor; auto. Qed.
Lemma NoDup_snoc {A} (l : list A) a : NoDup l -> ~ In a l -> NoDup (l ++ [a]).
Proof.
  intros N H. apply NoDup_rev in N. rewrite <- (rev_involutive (l ++ [a])). apply NoDup_rev. rewrite rev_app_distr. cbn [rev app].
  constructor; [rewrite <- in_rev; exact H|exact N].
Qed.
Lemma ids_sent p g l ids i : Forall2 (msgOk C P p g) l ids -> In i ids -> In i (gSent g p).
Proof.
  intros F. induction F as [|m j l ids M F IH]; intros I; [destruct I|]. destruct I as [<-|I]; [|auto].
  destruct M as (x & y & on & os & root & cr & r & w & nym & w' & ss & w1 & w2 & hp & sk & mk & body & fk & tk & h & M). apply (mi_in _ _ _ _ _ _ _ _ _ _ _ _ _ _ _ _ _ _ _ _ _ _ _ _ _ _ M).
Qed.
Lemma stG_bumped p g g' ss x y on os : stG C P p g ss x y on os -> ext g g' -> gSess g' p = gSess g p -> gSent g' p = (x, y, stMsgCount ss) :: gSent g p ->
  stMsgCount ss + 1 < 2 ^ 64 -> stG C P p g' (bumped ss) x y on os.
Proof.
  intros [S1 S2 S3 S4 S5 S6 S7 S8 S9 S10 S11] E ES EM L.
  assert (U : u64 (stMsgCount ss + 1) = stMsgCount ss + 1) by (apply N.mod_small; exact L).
  unfold bumped. constructor; cbn [stSenderPub stRecipTemp stNextSender stNextSeen stSessCount stMsgCount]; try assumption; rewrite ?U, ?ES, ?EM; try assumption.
  - destruct S8 as [S8|S8]; [left; now apply (x_sess _ _ E)|right; eapply kiCond_ext; eassumption].
  - intros i [Q|Q]; [apply pair_inj in Q as [_ <-]; lia|]. apply S9 in Q. lia.
  - intros n Hn. destruct (S10 n Hn) as (A1 & A2 & A3 & A4). split; [now apply (x_T _ _ E)|]. split; [exact A2|]. split; [exact A3|].
    intros z i [Q|Q]; [apply pair_inj in Q as [Q _]; apply pair_inj in Q as [Q _]; congruence|]. exact (A4 z i Q).
  - intros s Hs. destruct (S11 s Hs) as (n & root & cr & A1 & A2 & A3 & A4). exists n, root, cr. repeat split; auto; now apply (x_G _ _ E).
Qed.
Lemma base_grow p st g g' : ext g g' -> gSess g' p = gSess g p -> (forall x y i, In (x, y, i) (gSent g' p) -> In (x, y, i) (gSent g p) \/ In (x, y) (gSess g p)) ->
  (forall k, gT g' k = Some (TSess p) -> gT g k = Some (TSess p)) -> base C P p st g -> base C P p st g'.
Proof.
  intros E K1 K2 K3 [B1 B2 B3 B4 B5 B6 B7 B8]. constructor; try assumption; rewrite ?K1; try assumption.
  - intros x y H. destruct (B1 x y H) as (s & root & cr & n & A1 & A2 & A3 & A4 & A5 & A6 & A7 & A8).
    exists s, root, cr, n. split; [exact A1|]. split; [now apply (x_G _ _ E)|]. repeat (split; [assumption|]).
    split; [intros i Hi Hn; apply (x_sent _ _ E); now apply A7|intros i Hi Hn; apply (x_del _ _ E); now apply A8].
  - intros x y H. destruct (B3 x y H). split; eapply ownT_ext; eassumption.
  - auto.
  - intros x y i H. destruct (K2 _ _ _ H) as [Q|Q]; [now apply B8 with i|exact Q].
Qed.
Lemma send_inv c g p a r nym w : inv C P c g -> noColl C P (rHeaderPriv r :: rSessPriv r :: cUsed c) -> sendOk C P p a r ->
  numOf C P p a (cStore c p) + 1 < 2 ^ 63 -> fresh C [rHeaderPriv r; rSessPriv r] (cUsed c) -> run (encrypt C a r) (cStore c p) = (Ok nym, w) ->
  exists g', inv C P (mkConv (upd (cStore c) p (wStore w)) (upd (cNet c) p (cNet c p ++ [mkSent a (sessOf C P p (wStore w)) (numOf C P p a (cStore c p)) (wOut w)]))
                   (rHeaderPriv r :: rSessPriv r :: cUsed c)) g'.
Proof.
  intros I HC SO NB0 FR EN. assert (NB : numOf C P p a (cStore c p) + 1 < 2 ^ 64) by lia. set (used := rHeaderPriv r :: rSessPriv r :: cUsed c) in *.
  assert (KU : NoDup (map (dhpub C) used)) by exact FR.
  destruct I as [I1 I2 I3 I4 I5 I6].
  assert (T : tagsOk P used g) by (eapply tags_grow; [|exact I2]; intros z Hz; right; right; exact Hz).
  assert (N1 : gT g (rHeaderPriv r) = None) by (eapply fresh_tag; [exact I2|exact FR|now left]).
  assert (N2 : gT g (rSessPriv r) = None) by (eapply fresh_tag; [exact I2|exact FR|right; now left]).
  assert (NE : rHeaderPriv r <> rSessPriv r).
  { intros Q. cbn [used map] in KU. inversion KU as [|? ? K1 K2]; subst. apply K1. left. now rewrite Q. }
  unfold run in EN. set (w0 := mkWorld (cStore c p) [] []) in *.
  destruct (encrypt_ok _ _ _ _ _ _ EN) as (ss & w1 & w2 & hp & sk & mk & body & fk & tk & EO).
  pose proof EO as [O1 O2 O3 O4 O5 O6 O7 O8 O9].
  destruct (send_state C P used KU HC p a r w0 g (I3 p) T SO (I4 p) (or_introl eq_refl) (or_intror (or_introl eq_refl)) N1 N2 NE)
    as [(_ & _ & e & v & Q)|(nym' & ss' & w1' & l & g1 & x & y & on & os & Q1 & Q2 & Q3 & Q4)].
  { rewrite Q in O1. discriminate. }
  rewrite O1 in Q1. apply okpair in Q1 as [Q1 Q1']. apply pair_inj in Q1 as [<- <-]. subst w1'.
  destruct Q2 as [R1 R2 R3 R4 R5 R6 R7 R8 R9 R10]. subst w1.
  assert (EW : wStore (steps w0 l) = ap l (cStore c p)) by apply steps_ap. change (wStore w0) with (cStore c p) in *. rewrite <- EW in R2, R4.
  destruct (send_key C P used KU HC p a r (steps w0 l) g1 ss x y on os R2 R5 SO R3 R4) as (root & cr & l2 & s & K1 & K2 & K3 & K4 & K5 & K6).
  rewrite O3 in K1. apply okpair in K1 as [K1 K1']. apply pair_inj in K1 as [-> ->]. subst w2.
  set (num := stMsgCount ss) in *. set (id := (x, y, num)).
  set (g2 := gSend p id g1). set (g3 := gTag (rHeaderPriv r) THdr g2).
  assert (E3 : ext g1 g3) by (eapply ext_trans; [apply ext_send|apply ext_tag; exact Q4]).
  assert (T3 : tagsOk P used g3).
  { apply tags_add; try (intros; discriminate); [|now left|exact Q4]. destruct R5 as [A1 A2 A3 A4]. constructor; assumption. }
  assert (S3 : gSent g3 p = id :: gSent g1 p) by (cbn [g3 gTag g2 gSend gSent]; apply upd_same).
  assert (ST3 : gSess g3 p = gSess g1 p) by reflexivity.
  assert (NI : ~ In id (gSent g p)).
  { rewrite <- R8. intros Q. apply (k_sent _ _ _ _ _ _ _ _ _ R3) in Q. unfold num in Q. lia. }
  assert (B3 : base C P p (ap l2 (wStore (steps w0 l))) g3).
  { apply (base_grow p _ g1); try assumption; try reflexivity.
    - intros x' y' i' Q. rewrite S3 in Q. destruct Q as [Q|Q]; [|now left]. right. apply pair_inj in Q as [Q _]. apply pair_inj in Q as [<- <-]. apply (k_cur _ _ _ _ _ _ _ _ _ R3).
    - intros k Q. cbn [g3 gTag gT g2 gSend] in Q. destruct (beqP k (rHeaderPriv r)); [discriminate|exact Q]. }
  assert (B4 : base C P p (apply_op (ODelMsgKey (SK p x y) true num) (ap l2 (wStore (steps w0 l)))) g3).
  { apply (base_del C P used KU HC); try assumption; [apply (k_cur _ _ _ _ _ _ _ _ _ R3)|]. rewrite S3. now left. }
  destruct (sk_from _ _ _ _ _ SO) as [[F1 [ks F2]] F3]. destruct (sk_to _ _ _ _ _ SO) as [T1 [ks' T2]]. fold (sec p) in *. fold (sec (negb p)) in *.
  rewrite (pubKey_cons _ _ _ F2) in O7. cbn [rbind] in O7. rewrite initDHKey_pub32 in O7. injection O7 as <-.
  rewrite (pubKey_cons _ _ _ T2) in O8. cbn [rbind] in O8. rewrite initDHKey_pub32 in O8. injection O8 as <-.
  change (calcStateKey C (dhpub C (sec p)) (dhpub C (sec (negb p)))) with (stateKey C P p) in O9.
  assert (WS : wStore w = apply_op (OSetState (stateKey C P p) (bumped ss)) (apply_op (ODelMsgKey (SK p x y) true num) (ap l2 (wStore (steps w0 l))))).
  { rewrite O9, steps_ap, !ap_cons, steps_ap. reflexivity. }
  assert (G4 : stG C P p g3 (bumped ss) x y on os).
  { eapply stG_bumped; try eassumption; try reflexivity. fold num. rewrite Q3. exact NB. }
  assert (S4 : stS C P p (wStore w) (stMsgCount (bumped ss)) x y on).
  { rewrite WS. apply stS_state. eapply (stS_del C P); [exact K3|apply (k_cur _ _ _ _ _ _ _ _ _ R3)|]. destruct K6 as [K61 K62]. constructor; [|exact K62].
    intros s' Q. unfold bumped. cbn [stMsgCount]. fold num. rewrite K4 in Q. apply someInj in Q. subst s'. unfold u64. rewrite N.mod_small by (rewrite Q3; exact NB). lia. }
  assert (MS : mget (stateKey C P p) (states (wStore w)) = Some (bumped ss)) by (rewrite WS; cbn [apply_op states]; apply mget_mset_same).
  assert (EX : ext g g3) by (eapply ext_trans; eassumption).
  assert (KP : keep (negb p) g g3).
  { eapply keep_trans; [exact R7|]. eapply keep_trans; [apply keep_send|]. apply keep_tag. discriminate. }
  exists g3. constructor; cbn [cUsed cStore cNet].
  - exact KU.
  - exact T3.
  - intros q. destruct (upd_cases (cStore c) p (wStore w) q) as [[-> ->]|[-> ->]].
    + rewrite WS. apply base_state. exact B4.
    + eapply base_keep; [exact EX|exact KP|apply I3].
  - intros q. destruct (upd_cases (cStore c) p (wStore w) q) as [[-> ->]|[-> ->]].
    + unfold stInv. rewrite MS. exists x, y, on, os. split; assumption.
    + eapply stInv_keep; [exact EX|exact KP|apply I4].
  - intros q. destruct (I5 q) as (ids & J1 & J2 & J3).
    destruct (upd_cases (cNet c) p (cNet c p ++ [mkSent a (sessOf C P p (wStore w)) (numOf C P p a (cStore c p)) (wOut w)]) q) as [[-> ->]|[-> ->]].
    + exists (ids ++ [id]). split; [|split].
      * apply Forall2_snoc; [eapply Forall2_mono; [|exact J1]; intros m i; apply msgOk_ext; exact EX|].
        destruct (encHeader_inv _ _ _ _ _ O2) as (h & rpub & H1 & H2 & H3).
        assert (RP : publicKey (eTo a) = Ok (dhpub C (sec (negb p)))).
        { unfold publicKey. rewrite (pubKey_cons _ _ _ T2). cbn [rbind initDHKey kePub]. rewrite b64dec_enc by apply dhpub_wf. rewrite dhpub_len. reflexivity. }
        rewrite RP in H2. injection H2 as <-.
        eexists x, y, on, os, root, cr, r, w0, nym, w, ss, _, _, hp, (SK p x y), _, body, (dhpub C (sec p)), (dhpub C (sec (negb p))), h.
        constructor; cbn [sArgs sSess sNum sWire].
        -- exact EO.
        -- eapply encWf_of; eassumption.
        -- exact H1.
        -- exact H3.
        -- exact RP.
        -- pose proof (encrypt_out _ _ _ _ _ _ _ _ _ _ _ _ _ _ _ EO) as OUT. exact OUT.
        -- symmetry. exact Q3.
        -- lia.
        -- unfold sessOf. rewrite MS. unfold bumped. cbn [stRecipTemp stSenderPub].
           rewrite (k_send _ _ _ _ _ _ _ _ _ R3), (k_temp _ _ _ _ _ _ _ _ _ R3), !keHash_init. unfold ConvInv.SK, skOf, sessKeyOf. rewrite negb_involutive. reflexivity.
        -- exact (sk_from _ _ _ _ _ SO).
        -- exact (sk_to _ _ _ _ _ SO).
        -- apply (k_send _ _ _ _ _ _ _ _ _ R3).
        -- apply (k_temp _ _ _ _ _ _ _ _ _ R3).
        -- apply (k_next _ _ _ _ _ _ _ _ _ R3).
        -- apply (k_seen _ _ _ _ _ _ _ _ _ R3).
        -- cbn [g3 gTag gT]. now rewrite beq_refl.
        -- reflexivity.
        -- apply (x_G _ _ E3). exact K2.
        -- reflexivity.
        -- rewrite S3. now left.
        -- apply (k_cur _ _ _ _ _ _ _ _ _ G4).
        -- apply (k_peer _ _ _ _ _ _ _ _ _ G4).
        -- destruct (b_tags _ _ _ _ _ R2 _ _ (k_cur _ _ _ _ _ _ _ _ _ R3)). split; apply (ownT_ext g1 g3 _ _ E3); assumption.
        -- intros n Hn. apply (k_nextT _ _ _ _ _ _ _ _ _ G4 n Hn).
        -- intros s' Hs. destruct (k_seenT _ _ _ _ _ _ _ _ _ R3 s' Hs) as (n & root' & cr' & A1 & A2 & _).
           destruct (b_tags _ _ _ _ _ R2 _ _ A2). apply (ownT_ext g1 g3 _ _ E3); assumption.
        -- intros n s' Hn Hs. destruct (k_seenT _ _ _ _ _ _ _ _ _ R3 s' Hs) as (n' & root' & cr' & A1 & A2 & A3 & A4).
           rewrite Hn in A1. injection A1 as <-. rewrite K2 in A3. injection A3 as <- <-. split; [exact A2|]. apply (x_G _ _ E3). exact A4.
      * apply NoDup_snoc; [exact J2|]. intros Q. apply NI. eapply ids_sent; eassumption.
      * intros i Q. apply in_app_or in Q. change (gDel g3 p) with (gDel g1 p). rewrite R9. destruct Q as [Q|[<-|[]]]; [auto|].
        intros D. apply NI. now apply I6.
    + exists ids. split; [eapply Forall2_mono; [|exact J1]; intros m i; apply msgOk_ext; exact EX|]. split; [exact J2|].
      change (gDel g3 (negb p)) with (gDel g1 (negb p)). rewrite R9. exact J3.
  - intros q i Q. change (gDel g3 q) with (gDel g1 q) in Q. rewrite R9 in Q. apply I6 in Q. apply (x_sent _ _ EX). exact Q.
Qed.
End Send.
