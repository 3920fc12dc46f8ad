(* Properties of ctrlengine: contacts (C30, C31), incoming messages (C34, C36), upkeep (C37). *)
From Verif Require Import Base Base64Model CodecModel IdentityModel IdentityProofs SqlModel SqlProofs Maps
  MsgDBModel MsgDBProofs MsgDBQueue MsgDBView MsgDBSpec MsgDBSteps PropsMsgDB CryptoModel MixModel MixProofs MixClientModel CtrlModel.
From Coq Require Import Sorting.Sorted.
Local Open Scope N_scope.

Lemma mapped_imap U x : mapped U x = true -> imap U x = Ok x.
Proof. unfold mapped, isMapped. destruct (imap U x) as [m| |]; try discriminate. intros B. apply beq_spec in B as ->. reflexivity. Qed.
Lemma imap_twice U x y z : imap U x = Ok y -> imap U y = Ok z -> z = y.
Proof.
  intros A B. destruct (N.leb_spec (utf8len y) MaxLen) as [L|L]; [rewrite (imap_fix U x y A L) in B; congruence|].
  unfold imap in B. apply N.ltb_lt in L. rewrite L in B. discriminate.
Qed.
Lemma getContact_cstate U my c db r : Inv U db -> getContact U my c db = Ok r ->
  mapped U my = true /\ mapped U c = true /\ (exists u, uidOf my db = Some u) /\
  match cstate my c db with None => r = ([], [], 0) | Some s => r = s /\ snd s <= 2 /\ fst (fst s) <> [] end.
Proof.
  intros V G. unfold getContact in G. inv1 G. inv1 G. inv1 G. split; [exact E|]. split; [exact E0|].
  assert (UU : uidOf my db = Some a1) by (unfold uidOf; rewrite E1; reflexivity). split; [eauto|]. unfold cstate. rewrite UU.
  destruct (tmin _ (dbContacts db)) as [[i x]|] eqn:T; [|apply Ok_eq in G; auto].
  destruct (N.leb_spec (cBlocked x) 2) as [L|L]; [|discriminate]. apply Ok_eq in G. split; [auto|]. cbn [fst snd]. split; [exact L|].
  apply tmin_some in T as [I _]. destruct (iv_contacts _ _ V) as (_ & F & _). rewrite Forall_forall in F. destruct (F _ I) as (_ & _ & _ & N). exact N.
Qed.

(* ------------------------------------------------------------------ *)
(* C30 and C31 at the level of the commands. *)
Inductive command := KAdd (fullName : bytes) (ctype : N) (lookup : bool) | KEdit (fullName : bytes) | KRemove | KBlock | KUnblock.
Definition runCommand (U : Unicode) (k : command) (id contact : bytes) (db : msgdb) : res msgdb :=
  match k with
  | KAdd f t l => contactAdd U id contact f t l db
  | KEdit f => contactEdit U id contact f db
  | KRemove => contactRemove U id contact db
  | KBlock => contactBlock U id contact db
  | KUnblock => contactUnblock U id contact db
  end.
(* the list a contact is on: None, or white 0, gray 1, black 2 *)
Definition onList (my c : bytes) (db : msgdb) : option N := match cstate my c db with Some (_, _, t) => Some t | None => None end.
Definition after (k : command) (old : option N) : option N :=
  match k with KAdd _ _ _ => Some 0 | KEdit _ => old | KRemove => match old with Some _ => Some 1 | None => None end | KBlock => Some 2 | KUnblock => Some 0 end.
Lemma runCommand_op U k id contact db db' : Inv U db -> runCommand U k id contact db = Ok db' -> exists my c, imap U id = Ok my /\ imap U contact = Ok c /\
  ((db' = db /\ exists f t l, k = KAdd f t l /\ onList my c db = Some 0) \/
   (k = KRemove /\ dexec U (DRemoveContact my c) db = Ok db') \/
   exists un full t, dexec U (DAddContact my c un full t) db = Ok db' /\ Some t = after k (onList my c db) /\
     match k with
     | KAdd _ _ _ => match cstate my c db with Some (a, b, _) => un = a /\ full = b | None => un = c /\ full = [] end
     | KEdit f => un = contact /\ full = f /\ onList my c db <> None
     | KBlock => un = c /\ full = match cstate my c db with Some (_, b, _) => b | None => [] end
     | KUnblock => onList my c db = Some 2 /\ match cstate my c db with Some (a, b, _) => un = a /\ full = b | None => False end
     | KRemove => False
     end).
Proof.
  intros V H. assert (exists my c, imap U id = Ok my /\ imap U contact = Ok c) as (my & c & Em & Ec).
  { destruct k; cbn [runCommand] in H; unfold contactAdd, contactEdit, contactRemove, contactBlock, contactUnblock in H; inv1 H; inv1 H; eauto. }
  exists my, c. split; [exact Em|]. split; [exact Ec|].
  destruct k; cbn [runCommand after] in *; unfold contactAdd, contactEdit, contactRemove, contactBlock, contactUnblock in H; rewrite Em, Ec in H; cbn [rbind] in H.
  - inv1 H. destruct a as [[un full] t]. destruct (getContact_cstate _ _ _ _ _ V E) as (M1 & M2 & _ & S). unfold onList. destruct (cstate my c db) as [[[a b] s]|] eqn:CS.
    + destruct S as (S & _ & NN). cbn [fst snd] in NN. assert (un = a /\ full = b /\ t = s) as (-> & -> & ->) by (repeat split; congruence).
      destruct (isNil a) eqn:Z; [apply isNil_spec in Z; contradiction|]. cbn [negb] in H. unfold WhiteList in H. destruct (N.eqb_spec s 0) as [->|Ne]; cbn [negb] in H.
      * apply Ok_eq in H. subst db'. left. split; [reflexivity|]. do 3 eexists. split; reflexivity.
      * right; right. exists a, b, 0. split; [exact H|]. split; [reflexivity|]. split; reflexivity.
    + assert (un = [] /\ full = [] /\ t = 0) as (-> & -> & ->) by (repeat split; congruence). cbn [isNil negb] in H. destruct lookup; [|discriminate].
      unfold cAdd in H. rewrite (mapped_imap _ _ M2) in H. cbn [rbind] in H. rewrite E in H. cbn [rbind isNil negb andb] in H. right; right. exists c, [], 0. split; [exact H|]. split; [reflexivity|]. split; reflexivity.
  - inv1 H. destruct a as [[un full] t]. destruct (getContact_cstate _ _ _ _ _ V E) as (_ & _ & _ & S). unfold onList. destruct (cstate my c db) as [[[a b] s]|] eqn:CS.
    + destruct S as (S & _ & NN). assert (un = a /\ full = b /\ t = s) as (-> & -> & ->) by (repeat split; congruence). cbn [fst snd] in NN. destruct (isNil a) eqn:Z; [discriminate|].
      right; right. exists contact, fullName, s. split; [exact H|]. split; [reflexivity|]. repeat split. discriminate.
    + assert (un = []) as -> by congruence. discriminate.
  - right; left. auto.
  - unfold cAdd in H. inv1 H. assert (a = c) as -> by (pose proof (imap_twice _ _ _ _ Ec E); congruence). inv1 H. destruct a as [[un full] t]. destruct (getContact_cstate _ _ _ _ _ V E0) as (_ & M2 & _ & S).
    right; right. destruct (cstate my c db) as [[[x y] s]|] eqn:CS.
    + destruct S as (S & _ & NN). assert (un = x /\ full = y) as (-> & ->) by (split; congruence). cbn [fst snd] in NN. destruct (isNil x) eqn:Z; [apply isNil_spec in Z; contradiction|]. cbn [negb andb isNil] in H.
      exists c, y, 2. split; [exact H|]. split; [reflexivity|]. split; reflexivity.
    + assert (un = []) as -> by congruence. cbn [isNil negb andb] in H. exists c, [], 2. split; [exact H|]. split; [reflexivity|]. split; reflexivity.
  - inv1 H. destruct a as [[un full] t]. destruct (getContact_cstate _ _ _ _ _ V E) as (_ & _ & _ & S). unfold BlackList, WhiteList in H. destruct (N.eqb_spec t 2) as [->|Ne]; cbn [negb] in H; [|discriminate].
    unfold onList. destruct (cstate my c db) as [[[a b] s]|] eqn:CS; [|congruence]. destruct S as (S & _ & NN). assert (un = a /\ full = b /\ s = 2) as (-> & -> & ->) by (repeat split; congruence).
    right; right. exists a, b, 0. split; [exact H|]. split; [reflexivity|]. repeat split.
Qed.
(* After a successful command the contact is on the list the command says, and every other contact of every user is unchanged. *)
Theorem C30_commands : forall U ops k id contact db', let db := drun U ops emptyDB in
  runCommand U k id contact db = Ok db' -> exists my c, imap U id = Ok my /\ imap U contact = Ok c /\
  onList my c db' = after k (onList my c db) /\ forall my' c', (my', c') <> (my, c) -> cstate my' c' db' = cstate my' c' db.
Proof.
  intros U ops k id contact db' db H. assert (V : Inv U db) by apply Inv_drun, Inv_empty.
  destruct (runCommand_op U k id contact db db' V H) as (my & c & Em & Ec & D). exists my, c. split; [exact Em|]. split; [exact Ec|].
  assert (OT : forall my' c', (my', c') <> (my, c) -> beq my my' && beq c c' = false).
  { intros my' c' N. destruct (beq my my') eqn:B1, (beq c c') eqn:B2; try reflexivity. apply beq_spec in B1, B2. congruence. }
  destruct D as [(-> & f & t & l & -> & O)|[(-> & E)|(un & full & t & E & O & _)]].
  - split; [rewrite O; reflexivity|reflexivity].
  - unfold onList at 1. rewrite (cstate_dexec U _ _ _ my c V E). cbn [decide]. rewrite !beq_refl. cbn [andb]. split.
    + unfold onList. destruct (cstate my c db) as [[[a b] s]|]; reflexivity.
    + intros my' c' N. rewrite (cstate_dexec U _ _ _ my' c' V E). cbn [decide]. rewrite (OT _ _ N). reflexivity.
  - unfold onList at 1. rewrite (cstate_dexec U _ _ _ my c V E). cbn [decide]. rewrite !beq_refl. cbn [andb]. split; [exact O|].
    intros my' c' N. rewrite (cstate_dexec U _ _ _ my' c' V E). cbn [decide]. rewrite (OT _ _ N). reflexivity.
Qed.
Definition c30run : res (list (option N)) :=
  do db1 <- runCommand goUnicode KBlock (str "Ann@b.de") (str "Cat@b.de") (exRun []);
  do db2 <- runCommand goUnicode KUnblock exA exC db1;
  do db3 <- runCommand goUnicode (KAdd [] 1 true) exA (str "dan@b.de") db2;
  do db4 <- runCommand goUnicode KRemove exA exC db3;
  Ok [onList exA exC db1; onList exA exC db2; onList exA (str "dan@b.de") db2; onList exA (str "dan@b.de") db3; onList exA exC db4; onList exB exC db4].
Example C30_commands_ex : c30run = Ok [Some 2; Some 0; None; Some 0; Some 1; Some 0].
Proof. vm_compute. reflexivity. Qed.

(* C31: what the user entered.  Adding: the spelling and the full name are never kept; the stored values are the mapped identity and "". *)
Theorem C31_add_loses : forall U ops id contact full ctype db' my c, let db := drun U ops emptyDB in
  imap U id = Ok my -> imap U contact = Ok c -> cstate my c db = None ->
  contactAdd U id contact full ctype true db = Ok db' -> cstate my c db' = Some (c, [], 0).
Proof.
  intros U ops id contact full ctype db' my c db Em Ec N H. assert (V : Inv U db) by apply Inv_drun, Inv_empty.
  destruct (runCommand_op U (KAdd full ctype true) id contact db db' V H) as (my' & c' & Em' & Ec' & D).
  assert (my' = my) as -> by congruence. assert (c' = c) as -> by congruence. unfold onList in D. rewrite N in D.
  destruct D as [(_ & f & t & l & _ & O)|[(E & _)|(un & fl & t & E & O & U1 & U2)]]; try discriminate.
  rewrite (cstate_dexec U _ _ _ my c V E). cbn [decide]. rewrite !beq_refl. cbn [andb]. cbn [after] in O. injection O as ->. rewrite U1, U2. reflexivity.
Qed.
Definition c31db : msgdb := drun goUnicode [DAddNym exA (str "Ann@b.de") []] emptyDB.
Definition c31run : res (list bytes) := do db <- contactAdd goUnicode (str "Ann@b.de") (str "Bob@b.de") (str "Bob B") 0 true c31db; getContacts goUnicode exA false db.
Theorem C31_refuted : exists id contact full, id = str "Ann@b.de" /\ contact = str "Bob@b.de" /\ full = str "Bob B" /\
  (do db <- contactAdd goUnicode id contact full 0 true c31db; getContacts goUnicode exA false db) = Ok [str "bob@b.de"].
Proof. do 3 eexists. split; [reflexivity|]. split; [reflexivity|]. split; [reflexivity|]. change (c31run = Ok [str "bob@b.de"]). vm_compute. reflexivity. Qed.
(* Editing keeps both exactly; blocking replaces the spelling by the mapped one and keeps the name; unblocking and adding a known contact keep both. *)
Theorem C31_edit_partial : forall U ops id contact full db' my c, let db := drun U ops emptyDB in
  imap U id = Ok my -> imap U contact = Ok c -> contactEdit U id contact full db = Ok db' ->
  exists t, onList my c db = Some t /\ cstate my c db' = Some (contact, full, t).
Proof.
  intros U ops id contact full db' my c db Em Ec H. assert (V : Inv U db) by apply Inv_drun, Inv_empty.
  destruct (runCommand_op U (KEdit full) id contact db db' V H) as (my' & c' & Em' & Ec' & D).
  assert (my' = my) as -> by congruence. assert (c' = c) as -> by congruence.
  destruct D as [(_ & f & t & l & E & O)|[(E & _)|(un & fl & t & E & O & U1 & U2 & _)]]; try discriminate.
  exists t. split; [symmetry; exact O|]. rewrite (cstate_dexec U _ _ _ my c V E). cbn [decide]. rewrite !beq_refl. cbn [andb]. rewrite U1, U2. reflexivity.
Qed.
Theorem C31_known_partial : forall U ops k id contact db' my c un full t, let db := drun U ops emptyDB in
  imap U id = Ok my -> imap U contact = Ok c -> cstate my c db = Some (un, full, t) -> runCommand U k id contact db = Ok db' ->
  match k with
  | KEdit _ => True
  | KBlock => cstate my c db' = Some (c, full, 2)
  | _ => exists t', cstate my c db' = Some (un, full, t')
  end.
Proof.
  intros U ops k id contact db' my c un full t db Em Ec CS H. assert (V : Inv U db) by apply Inv_drun, Inv_empty.
  destruct (runCommand_op U k id contact db db' V H) as (my' & c' & Em' & Ec' & D).
  assert (my' = my) as -> by congruence. assert (c' = c) as -> by congruence. unfold onList in D. rewrite CS in D.
  destruct D as [(-> & f & t1 & l & -> & O)|[(-> & E)|(u1 & f1 & t1 & E & O & S)]].
  - eauto.
  - rewrite (cstate_dexec U _ _ _ my c V E). cbn [decide]. rewrite !beq_refl, CS. cbn [andb]. eauto.
  - rewrite (cstate_dexec U _ _ _ my c V E). cbn [decide]. rewrite !beq_refl. cbn [andb].
    destruct k; cbn [after] in O; [destruct S as [-> ->]; eauto|exact Logic.I|contradiction|destruct S as [-> ->]; injection O as ->; reflexivity|destruct S as [_ [-> ->]]; eauto].
Qed.

(* ------------------------------------------------------------------ *)
(* The steps of procInQueue as database operations. *)
Section In.
  Variable U : Unicode.
  Variable M : MixCrypto.
  Lemma getInQueue_row db i my c msg env : Inv U db -> getInQueue db = Ok (Some (i, my, c, msg, env)) ->
    exists r, tmin (fun _ _ => true) (dbIn db) = Some (i, r) /\ tget i (dbIn db) = Some r /\ qNymMapped (iMy r) db = Ok my /\ iMsg r = msg /\ iEnv r = env /\
      (if 0 <? iContact r then qContactMapped (iMy r) (iContact r) db else Ok []) = Ok c.
  Proof.
    intros V H. unfold getInQueue in H. destruct (tmin _ (dbIn db)) as [[j r]|] eqn:T; [|discriminate]. inv1 H. inv1 H. apply Ok_eq in H.
    exists r. assert (j = i) as -> by congruence. split; [reflexivity|]. apply tmin_some in T as [I _]. split; [apply tget_intro; [apply (iv_in _ _ V)|exact I]|].
    assert (a = my) as -> by congruence. assert (a0 = c) as -> by congruence. repeat split; congruence.
  Qed.
  Lemma isNil_not x : x <> [] -> isNil x = false. Proof. destruct x; [congruence|reflexivity]. Qed.
  Lemma inBody_cases e i my c msg env db db' ok : Inv U db -> inBody U M e i my c msg env db = (db', ok) ->
    (db' = db /\ ok = false) \/ dexec U (DDelInQueue i) db = Ok db' \/ (exists x, dexec U (DSetInQueue i x) db = Ok db') \/
    (exists sender text s, ieDec e = DGot sender text /\ cstate my sender db = Some s /\ dexec U (DRemoveInQueue i text sender (snd s =? 2)) db = Ok db') \/
    (exists sender text db1, ieDec e = DGot sender text /\ cstate my sender db = None /\ dexec U (DAddContact my sender sender [] 0) db = Ok db1 /\
      ((db' = db1 /\ ok = false) \/ dexec U (DRemoveInQueue i text sender false) db1 = Ok db')).
  Proof.
    intros V H. unfold inBody in H. destruct env.
    - destruct (openEnvelope U M my c msg db) as [[dec|]| |].
      + unfold tryOp in H. destruct (dexec U _ db) as [d| |] eqn:X; [|left; split; congruence..]. right; right; left. exists (b64enc dec). congruence.
      + unfold tryOp in H. destruct (dexec U _ db) as [d| |] eqn:X; [|left; split; congruence..]. right; left. congruence.
      + left; split; congruence.
      + left; split; congruence.
    - destruct (ieDec e) as [| |sender text] eqn:D.
      + left; split; congruence.
      + unfold tryOp in H. destruct (dexec U _ db) as [d| |] eqn:X; [|left; split; congruence..]. right; left. congruence.
      + destruct (isNil sender) eqn:NS.
        { unfold tryOp in H. destruct (dexec U _ db) as [d| |] eqn:X; [|left; split; congruence..]. right; left. congruence. }
        destruct (getContact U my sender db) as [[[un full] t]| |] eqn:G; [|left; split; congruence..].
        destruct (getContact_cstate _ _ _ _ _ V G) as (M1 & M2 & _ & S). destruct (cstate my sender db) as [[[a b] t']|] eqn:CS.
        * destruct S as (S & _ & NN). cbn [fst snd] in NN. assert (un = a /\ t = t') as (-> & ->) by (split; congruence). rewrite (isNil_not _ NN) in H.
          unfold tryOp in H. destruct (dexec U _ db) as [d| |] eqn:X; [|left; split; congruence..]. right; right; right; left. exists sender, text, (a, b, t'). split; [reflexivity|]. split; [exact CS|]. cbn [snd]. unfold BlackList in X. congruence.
        * assert (un = []) as -> by congruence. cbn [isNil] in H. destruct (contactAdd U my sender [] GrayList (ieLookup e) db) as [db1| |] eqn:CA; [|left; split; congruence..].
          destruct (runCommand_op U (KAdd [] GrayList (ieLookup e)) my sender db db1 V CA) as (my' & c' & Em & Ec & DD).
          rewrite (mapped_imap _ _ M1) in Em. apply Ok_eq in Em. subst my'. rewrite (mapped_imap _ _ M2) in Ec. apply Ok_eq in Ec. subst c'.
          unfold onList in DD. rewrite CS in DD. destruct DD as [(_ & f & t0 & l & _ & O)|[(O & _)|(u1 & f1 & t1 & E1 & O & Z1 & Z2)]]; try discriminate.
          cbn [after] in O. injection O as ->. subst u1 f1. right; right; right; right. exists sender, text, db1. split; [reflexivity|]. split; [exact CS|]. split; [exact E1|].
          unfold tryOp in H. destruct (dexec U _ db1) as [d| |] eqn:X; [right; congruence|left; split; congruence..].
  Qed.

  (* the messages received by [my] from [c] *)
  Definition from (my c : bytes) (db : msgdb) : list (N * msgRow) :=
    filter (fun e => negb (mDir (snd e)) && beq (mFrom (snd e)) c && beq (mTo (snd e)) my) (dbMsgs db).
  Definition blocked (my c : bytes) (db : msgdb) : Prop := onList my c db = Some 2.
  Lemma from_msgs my c db db' : dbMsgs db' = dbMsgs db -> from my c db' = from my c db.
  Proof. unfold from. intros ->. reflexivity. Qed.
  Lemma from_remove my0 c0 i text sender drop db db' r my : tget i (dbIn db) = Some r -> qNymMapped (iMy r) db = Ok my ->
    dexec U (DRemoveInQueue i text sender drop) db = Ok db' -> drop = true \/ (my, sender) <> (my0, c0) -> from my0 c0 db' = from my0 c0 db.
  Proof.
    intros T Q H D. cbn [dexec] in H. unfold removeInQueue in H. rewrite T in H. cbn [fromOpt rbind] in H. rewrite Q in H. inv1 H. inv1 H. cbn [rbind] in H. apply Ok_eq in H. subst db'.
    unfold from. cbn [withIn withMsgs dbMsgs]. destruct drop; [reflexivity|]. destruct D as [D|D]; [discriminate|]. unfold tins. rewrite filter_app. cbn [filter snd mDir mFrom mTo negb andb].
    destruct (beq sender c0) eqn:B1, (beq my my0) eqn:B2; cbn [andb]; rewrite ?app_nil_r; try reflexivity. apply beq_spec in B1, B2. congruence.
  Qed.
  Lemma in_tables o db db' : dexec U o db = Ok db' -> touchesIn o = false -> dbIn db' = dbIn db.
  Proof. intros H. apply (dexec_tables2 U o db db' H). Qed.
  Lemma inBody_blocked e i my c msg env db db' ok my0 c0 : Inv U db -> getInQueue db = Ok (Some (i, my, c, msg, env)) -> inBody U M e i my c msg env db = (db', ok) ->
    blocked my0 c0 db -> Inv U db' /\ blocked my0 c0 db' /\ from my0 c0 db' = from my0 c0 db.
  Proof.
    intros V G H B. destruct (getInQueue_row _ _ _ _ _ _ V G) as (r & _ & T & Q & _).
    destruct (inBody_cases _ _ _ _ _ _ _ _ _ V H) as [[-> _]|[E|[[x E]|[(sender & text & s & _ & CS & E)|(sender & text & db1 & _ & CS & E & F)]]]].
    - auto.
    - split; [exact (Inv_dexec _ _ _ _ V E)|]. unfold blocked, onList in *. rewrite (cstate_dexec U _ _ _ my0 c0 V E). cbn [decide]. split; [exact B|]. apply from_msgs, (dexec_tables2 U _ _ _ E). reflexivity.
    - split; [exact (Inv_dexec _ _ _ _ V E)|]. unfold blocked, onList in *. rewrite (cstate_dexec U _ _ _ my0 c0 V E). cbn [decide]. split; [exact B|]. apply from_msgs, (dexec_tables2 U _ _ _ E). reflexivity.
    - split; [exact (Inv_dexec _ _ _ _ V E)|]. split; [unfold blocked, onList in *; rewrite (cstate_dexec U _ _ _ my0 c0 V E); exact B|].
      apply (from_remove my0 c0 i text sender _ db db' r my T Q E). destruct (N.eqb_spec (snd s) 2) as [S2|S2]; [left; reflexivity|right]. intros X.
      assert (my = my0 /\ sender = c0) as (-> & ->) by (split; congruence). unfold blocked, onList in B. rewrite CS in B. destruct s as [[? ?] ?]. cbn [snd] in S2. congruence.
    - pose proof (Inv_dexec _ _ _ _ V E) as V1.
      assert (NE : (my, sender) <> (my0, c0)) by (intros X; assert (my = my0 /\ sender = c0) as (-> & ->) by (split; congruence); unfold blocked, onList in B; rewrite CS in B; discriminate).
      assert (B1 : blocked my0 c0 db1).
      { unfold blocked, onList in *. rewrite (cstate_dexec U _ _ _ my0 c0 V E). cbn [decide]. destruct (beq my my0) eqn:X1, (beq sender c0) eqn:X2; cbn [andb]; try exact B. apply beq_spec in X1, X2. congruence. }
      assert (F1 : from my0 c0 db1 = from my0 c0 db) by (apply from_msgs, (dexec_tables2 U _ _ _ E); reflexivity).
      destruct F as [[-> _]|F]; [auto|]. split; [exact (Inv_dexec _ _ _ _ V1 F)|]. split; [unfold blocked, onList in *; rewrite (cstate_dexec U _ _ _ my0 c0 V1 F); exact B1|].
      rewrite <- F1. apply (from_remove my0 c0 i text sender false db1 db' r my); [rewrite (in_tables _ _ _ E eq_refl); exact T| |exact F|right; exact NE].
      unfold qNymMapped in *. rewrite (proj1 (dexec_tables U _ _ _ E) eq_refl). exact Q.
  Qed.
  Lemma procIn_blocked my0 c0 : forall evs db db' ok, Inv U db -> blocked my0 c0 db -> procIn U M evs db = (db', ok) -> from my0 c0 db' = from my0 c0 db.
  Proof.
    induction evs as [|e evs IH]; intros db db' ok V B H; cbn [procIn] in H; destruct (getInQueue db) as [[[[[[i my] c] msg] env]|]| |] eqn:G;
      try (assert (db' = db) as -> by congruence; reflexivity); destruct (isNil my); try (assert (db' = db) as -> by congruence; reflexivity).
    destruct (inBody U M e i my c msg env db) as [db1 ok1] eqn:S. destruct (inBody_blocked _ _ _ _ _ _ _ _ _ my0 c0 V G S B) as (V1 & B1 & F1).
    destruct ok1; [|assert (db' = db1) as -> by congruence; exact F1]. rewrite (IH _ _ _ V1 B1 H). exact F1.
  Qed.
End In.
(* C36, first half, for every history of the database and every run of procInQueue: no message of a blocked contact is ever added
   to the messages of the user who blocked it, whatever is in the queue and however the decryptions turn out. *)
Theorem C36_blocked : forall U M ops evs my c db' ok, let db := drun U ops emptyDB in
  blocked my c db -> procIn U M evs db = (db', ok) -> from my c db' = from my c db.
Proof. intros U M ops evs my c db' ok db B H. exact (procIn_blocked U M my c evs db db' ok (Inv_drun U ops _ (Inv_empty U)) B H). Qed.
Theorem C36_visible : forall U M ops e i my c msg sender text db' , let db := drun U ops emptyDB in
  getInQueue db = Ok (Some (i, my, c, msg, false)) -> ieDec e = DGot sender text -> sender <> [] -> ~ blocked my sender db ->
  inBody U M e i my c msg false db = (db', true) ->
  exists k m, from my sender db' = from my sender db ++ [(k, m)] /\ mText m = text /\ (forall r, ~ In (i, r) (dbIn db')) /\
    onList my sender db' = match onList my sender db with None => Some 0 | s => s end.
Proof.
  intros U M ops e i my c msg sender text db' db G D NE NB H. assert (V : Inv U db) by apply Inv_drun, Inv_empty.
  destruct (getInQueue_row _ _ _ _ _ _ _ V G) as (r & _ & T & Q & _).
  assert (ADD : forall d d', tget i (dbIn d) = Some r -> qNymMapped (iMy r) d = Ok my -> dexec U (DRemoveInQueue i text sender false) d = Ok d' ->
    exists k m, from my sender d' = from my sender d ++ [(k, m)] /\ mText m = text /\ forall r, ~ In (i, r) (dbIn d')).
  { clear -r. intros d d' T Q H. cbn [dexec] in H. unfold removeInQueue in H. rewrite T in H. cbn [fromOpt rbind] in H. rewrite Q in H. inv1 H. inv1 H. cbn [rbind] in H. apply Ok_eq in H. subst d'.
    unfold from. cbn [withIn withMsgs dbMsgs dbIn]. unfold tins. rewrite filter_app. cbn [filter snd mDir mFrom mTo negb andb]. rewrite !beq_refl. cbn [andb].
    do 2 eexists. split; [reflexivity|]. split; [reflexivity|]. intros r0 I. apply In_tdel in I as [_ I]. cbn [fst] in I. rewrite N.eqb_refl in I. discriminate. }
  unfold inBody in H. rewrite D in H. rewrite (isNil_not _ NE) in H.
  destruct (getContact U my sender db) as [[[un full] t]| |] eqn:GC; try discriminate.
  destruct (getContact_cstate _ _ _ _ _ V GC) as (M1 & M2 & _ & S). unfold blocked, onList in *. destruct (cstate my sender db) as [[[a b] t']|] eqn:CS.
  - destruct S as (S & _ & NN). cbn [fst snd] in NN. assert (un = a /\ t = t') as (-> & ->) by (split; congruence). rewrite (isNil_not _ NN) in H.
    assert (X2 : (t' =? BlackList) = false) by (apply N.eqb_neq; unfold BlackList; congruence). rewrite X2 in H. unfold tryOp in H. destruct (dexec U _ db) as [d| |] eqn:X; try discriminate.
    assert (d = db') as -> by congruence. destruct (ADD _ _ T Q X) as (k & m & A1 & A2 & A3). exists k, m. split; [exact A1|]. split; [exact A2|]. split; [exact A3|].
    rewrite (cstate_dexec U _ _ _ my sender V X). cbn [decide]. rewrite CS. reflexivity.
  - assert (un = []) as -> by congruence. cbn [isNil] in H. destruct (contactAdd U my sender [] GrayList (ieLookup e) db) as [db1| |] eqn:CA; try discriminate.
    destruct (runCommand_op U (KAdd [] GrayList (ieLookup e)) my sender db db1 V CA) as (my' & c' & Em & Ec & DD).
    rewrite (mapped_imap _ _ M1) in Em. apply Ok_eq in Em. subst my'. rewrite (mapped_imap _ _ M2) in Ec. apply Ok_eq in Ec. subst c'.
    unfold onList in DD. rewrite CS in DD. destruct DD as [(_ & f & t0 & l & _ & O)|[(O & _)|(u1 & f1 & t1 & E1 & O & Z1 & Z2)]]; try discriminate.
    cbn [after] in O. injection O as ->. subst u1 f1. pose proof (Inv_dexec _ _ _ _ V E1) as V1. unfold tryOp in H. destruct (dexec U _ db1) as [d| |] eqn:X; try discriminate. assert (d = db') as -> by congruence.
    destruct (ADD db1 db') as (k & m & A1 & A2 & A3); [rewrite (in_tables _ _ _ _ E1 eq_refl); exact T|unfold qNymMapped in *; rewrite (proj1 (dexec_tables U _ _ _ E1) eq_refl); exact Q|exact X|].
    exists k, m. rewrite A1. split; [f_equal; apply from_msgs, (dexec_tables2 U _ _ _ E1); reflexivity|]. split; [exact A2|]. split; [exact A3|].
    rewrite (cstate_dexec U _ _ _ my sender V1 X). cbn [decide]. rewrite (cstate_dexec U _ _ _ my sender V E1). cbn [decide]. rewrite !beq_refl. reflexivity.
Qed.
Definition c36db (ops : list dop) : msgdb := exRun ([DAddAccount exA [] (repeat 1 64) (str "b.de") (repeat 2 64) 1 2 ; DAddInQueue exA [] 5 (str "eA=="); DSetInQueue 1 (str "eA==")] ++ ops).
Definition c36run (ops : list dop) (evs : list iev) : list (option N) * list (list bytes) * bool :=
  let (db, ok) := procIn goUnicode toyMix evs (c36db ops) in
  (map (fun c => onList exA c db) [exB; exC], map (fun c => map (fun e => mText (snd e)) (from exA c db)) [exB; exC], ok).
(* A blocked and a known sender; an unknown sender is put on the white list, not on the gray list. *)
Example C36_ex : c36run [DAddContact exA exB exB [] 2] [mkIev (DGot exB (str "hi")) true] = ([Some 2; Some 0], [[]; []], true)
  /\ c36run [] [mkIev (DGot exC (str "hi")) true] = ([None; Some 0], [[]; [str "hi"]], true).
Proof. vm_compute. split; reflexivity. Qed.
Theorem C36_refuted : exists evs, c36run [] evs = ([Some 0; Some 0], [[str "hi"]; []], true) /\ onList exA exB (c36db []) = None.
Proof. exists [mkIev (DGot exB (str "hi")) true]. vm_compute. split; reflexivity. Qed.

(* ------------------------------------------------------------------ *)
(* C34 *)
Lemma tmin_tins {A} p (a : A) t r : idsOk t -> tmin p t = Some r -> tmin p (tins a t) = Some r.
Proof.
  intros K H. rewrite tmin_find in H by exact K. rewrite tmin_find by (apply idsOk_tins; exact K). unfold tins.
  clear K. generalize (nextId t). intros n. induction t as [|x t IH]; [discriminate|]. cbn [find app] in *. destruct (p (fst x) (snd x)); [exact H|auto].
Qed.
Section Progress.
  Variable U : Unicode.
  Variable M : MixCrypto.
  (* the account a queue row belongs to, by name *)
  Definition named (db : msgdb) (r : iqRow) (my c : bytes) : Prop :=
    qNymMapped (iMy r) db = Ok my /\ (if 0 <? iContact r then qContactMapped (iMy r) (iContact r) db else Ok []) = Ok c.
  (* an envelope that can be opened with the key of the account, or belongs to another nym of it *)
  Definition opens (db : msgdb) (r : iqRow) : Prop := iEnv r = true -> exists my c x, named db r my c /\ openEnvelope U M my c (iMsg r) db = Ok x.
  Definition typesOk (db : msgdb) : Prop := Forall (fun e => cBlocked (snd e) <= 2) (dbContacts db).
  (* an event with which the decrypted message can be filed *)
  Definition fileable (e : iev) : Prop := match ieDec e with DErr => False | DNoKey => True | DGot s _ => s = [] \/ mapped U s = true end /\ ieLookup e = true.
  (* steps needed: an envelope is first opened, then decrypted *)
  Definition steps (t : tbl iqRow) : nat := fold_right (fun e n => (if iEnv (snd e) then 2 else 1) + n)%nat 0%nat t.

  Lemma nym_mapped db u : Inv U db -> In u (nkeys (dbNyms db)) -> exists my, qNymMapped u db = Ok my /\ my <> [] /\ mapped U my = true /\ qNymUID my db = Ok u.
  Proof.
    intros V I. apply in_map_iff in I as [[i n] [E I]]. cbn [fst] in E. subst i. exists (nMapped n). unfold qNymMapped. rewrite (tget_intro _ _ _ (proj1 (iv_nyms _ _ V)) I).
    split; [reflexivity|]. destruct (iv_nyms _ _ V) as (_ & F & _). rewrite Forall_forall in F. destruct (F _ I) as (X & Y & Z). cbn [snd] in *. split.
    - intros N0. rewrite N0 in X. discriminate.
    - split; [exact X|]. exact (qNymUID_intro U _ _ _ (iv_nyms _ _ V) I).
  Qed.
  Lemma row_named db i r : Inv U db -> In (i, r) (dbIn db) -> exists my c, named db r my c /\ my <> [] /\ mapped U my = true /\ qNymUID my db = Ok (iMy r).
  Proof.
    intros V I. destruct (iv_in _ _ V) as (_ & F). rewrite Forall_forall in F. destruct (F _ I) as (X & Y). cbn [snd] in *.
    destruct (nym_mapped db _ V X) as (my & Q & N0 & M0 & QU). unfold named. rewrite Q. destruct (N.ltb_spec 0 (iContact r)) as [L|L].
    - destruct Y as [Y|Y]; [lia|]. apply in_map_iff in Y as [[k cr] [E J]]. cbn [fst snd] in E.
      assert (k = iContact r) as -> by congruence. assert (cMy cr = iMy r) by congruence.
      unfold qContactMapped. destruct (tmin _ (dbContacts db)) as [[k' cr']|] eqn:T; [exists my, (cMapped cr'); auto|]. exfalso. apply tmin_none with (s := (iContact r, cr)) in T; [|exact J]. cbn [fst snd] in T.
      rewrite N.eqb_refl in T. apply andb_false_iff in T as [T|T]; [|discriminate]. apply N.eqb_neq in T. contradiction.
    - exists my, []. auto.
  Qed.
  (* reading is unaffected by a new contact *)
  Definition grown (db db' : msgdb) : Prop := dbNyms db' = dbNyms db /\ dbAccounts db' = dbAccounts db /\ (dbContacts db' = dbContacts db \/ exists x, dbContacts db' = tins x (dbContacts db)).
  Lemma tmin_grown db db' p r : Inv U db -> grown db db' -> tmin p (dbContacts db) = Some r -> tmin p (dbContacts db') = Some r.
  Proof. intros V (_ & _ & [->|[x ->]]) H; [exact H|]. apply tmin_tins; [apply (iv_contacts _ _ V)|exact H]. Qed.
  Lemma named_grown db db' r my c : Inv U db -> grown db db' -> named db r my c -> named db' r my c.
  Proof.
    intros V G (A & B). split; [unfold qNymMapped in *; rewrite (proj1 G); exact A|]. destruct (0 <? iContact r); [|exact B]. unfold qContactMapped in *.
    destruct (tmin _ (dbContacts db)) as [x|] eqn:T; [|discriminate]. rewrite (tmin_grown _ _ _ _ V G T). exact B.
  Qed.
  Lemma account_grown db db' my c x : Inv U db -> grown db db' -> getAccount U my c db = Ok x -> getAccount U my c db' = Ok x.
  Proof.
    intros V G H. unfold getAccount in *. inv1 H. assert (pairIDs U my c db' = Ok a) as ->.
    { unfold pairIDs in *. inv1 E. inv1 E. inv1 E. inv1 E. rewrite E0, E1. cbn [need rbind]. unfold qNymUID in *. rewrite (proj1 G), E2. cbn [rbind]. destruct (isNil c); [rewrite E3; exact E|].
      unfold qContactUID in *. destruct (tmin _ (dbContacts db)) as [z|] eqn:T; [|discriminate]. rewrite (tmin_grown _ _ _ _ V G T), E3. exact E. }
    cbn [rbind]. rewrite (proj1 (proj2 G)). exact H.
  Qed.
  Lemma opens_grown db db' r : Inv U db -> grown db db' -> opens db r -> opens db' r.
  Proof.
    intros V G O E. destruct (O E) as (my & c & x & A & B). exists my, c, x. split; [exact (named_grown _ _ _ _ _ V G A)|]. unfold openEnvelope in *. inv1 B. rewrite E0. cbn [rbind]. inv1 B.
    rewrite (account_grown _ _ _ _ _ V G E1). cbn [rbind]. exact B.
  Qed.
  Definition ready (db : msgdb) : Prop := Inv U db /\ typesOk db /\ Forall (fun e => opens db (snd e)) (dbIn db).

  Lemma steps_del i r t : In (i, r) t -> (steps (tdel (fun j _ => (j =? i)%N) t) < steps t)%nat.
  Proof.
    assert (L : forall t, (steps (tdel (fun j _ => (j =? i)%N) t) <= steps t)%nat).
    { clear. induction t as [|[j x] t IH]; [cbn; lia|]. unfold tdel in *. cbn [filter fst snd steps fold_right] in *. destruct (j =? i); cbn [negb steps fold_right snd]; fold (steps t); fold (steps (filter (fun r => negb (fst r =? i)%N) t)) in *; destruct (iEnv x); lia. }
    induction t as [|[j x] t IH]; [intros []|]. intros [E|I]; unfold tdel in *; cbn [filter fst snd].
    - assert (j = i) as -> by congruence. rewrite N.eqb_refl. cbn [negb]. specialize (L t). unfold tdel in L. cbn [steps fold_right snd]. fold (steps t). destruct (iEnv x); lia.
    - specialize (IH I). specialize (L t). destruct (j =? i); cbn [negb]; [cbn [steps fold_right snd]; fold (steps t); destruct (iEnv x); lia|].
      cbn [steps fold_right snd]. fold (steps t). fold (steps (filter (fun r => negb (fst r =? i)%N) t)). lia.
  Qed.
  Lemma steps_set i r msg t : In (i, r) t -> iEnv r = true -> (steps (tupd (fun j _ => (j =? i)%N) (fun r => mkIq (iMy r) (iContact r) (iDate r) msg false) t) < steps t)%nat.
  Proof.
    set (f := fun r => mkIq (iMy r) (iContact r) (iDate r) msg false). assert (L : forall t, (steps (tupd (fun j _ => (j =? i)%N) f t) <= steps t)%nat).
    { clear. induction t as [|[j x] t IH]; [cbn; lia|]. unfold tupd in *. cbn [map fst snd]. destruct (j =? i); cbn [steps fold_right snd]; fold (steps t); fold (steps (map (fun r => if (fst r =? i)%N then (fst r, f (snd r)) else r) t)); [change (iEnv (f x)) with false; cbn iota; destruct (iEnv x); lia|lia]. }
    intros I E. induction t as [|[j x] t IH]; [destruct I|]. destruct I as [I|I].
    - assert (j = i) as -> by congruence. assert (x = r) as -> by congruence. specialize (L t). unfold tupd in *. cbn [map fst snd]. rewrite N.eqb_refl. cbn [steps fold_right snd]. change (iEnv (f r)) with false. rewrite E. cbn iota. fold (steps t) (steps (map (fun r0 => if (fst r0 =? i)%N then (fst r0, f (snd r0)) else r0) t)) in *. lia.
    - specialize (IH I). unfold tupd in *. cbn [map fst snd]. destruct (j =? i); cbn [steps fold_right snd]; fold (steps t); fold (steps (map (fun r => if (fst r =? i)%N then (fst r, f (snd r)) else r) t)); [change (iEnv (f x)) with false; cbn iota; destruct (iEnv x); lia|lia].
  Qed.
  Lemma ready_del i r db db' : ready db -> In (i, r) (dbIn db) -> Inv U db' -> grown db db' -> typesOk db' -> dbIn db' = tdel (fun j _ => (j =? i)%N) (dbIn db) -> ready db' /\ (steps (dbIn db') < steps (dbIn db))%nat.
  Proof.
    intros (V & _ & O) I V' G T E. split; [|rewrite E; exact (steps_del i r _ I)]. split; [exact V'|]. split; [exact T|]. rewrite Forall_forall in *. intros x X. rewrite E in X. apply In_tdel in X as [X _].
    apply (opens_grown db db' _ V G). exact (O x X).
  Qed.
  Lemma step_ok e db : ready db -> fileable e ->
    getInQueue db = Ok None /\ dbIn db = [] \/
    exists i my c msg env db', getInQueue db = Ok (Some (i, my, c, msg, env)) /\ my <> [] /\ inBody U M e i my c msg env db = (db', true) /\ ready db' /\ (steps (dbIn db') < steps (dbIn db))%nat.
  Proof.
    intros R F. pose proof R as (V & TY & O). unfold getInQueue. destruct (tmin _ (dbIn db)) as [[i r]|] eqn:T.
    2: { left. split; [reflexivity|]. destruct (dbIn db) as [|x l] eqn:DI; [reflexivity|]. apply tmin_none with (s := x) in T; [discriminate|left; reflexivity]. }
    right. apply tmin_some in T as [I _]. destruct (row_named db i r V I) as (my & c & (NA & NB) & NE & MM & QU). exists i, my, c, (iMsg r), (iEnv r).
    rewrite NA. cbn [rbind]. rewrite NB. cbn [rbind]. assert (TG : tget i (dbIn db) = Some r) by (apply tget_intro; [apply (iv_in _ _ V)|exact I]).
    assert (DEL : forall d, d = withIn (tdel (fun j _ => j =? i) (dbIn db)) db -> dexec U (DDelInQueue i) db = Ok d /\ ready d /\ (steps (dbIn d) < steps (dbIn db))%nat).
    { intros d ->. split; [reflexivity|]. apply (ready_del i r db _ R I); [apply (Inv_dexec U (DDelInQueue i) db); [exact V|reflexivity]|repeat split; left; reflexivity|exact TY|reflexivity]. }
    unfold inBody. destruct (iEnv r) eqn:EV.
    - rewrite Forall_forall in O. destruct (O _ I EV) as (my' & c' & x & (NA' & NB') & OP). cbn [snd] in *. assert (my' = my) as -> by congruence. assert (c' = c) as -> by congruence. rewrite OP. destruct x as [dec|].
      + eexists. split; [reflexivity|]. split; [exact NE|]. unfold tryOp. cbn [dexec]. unfold setInQueue. split; [reflexivity|].
        split; [|cbn [withIn dbIn]; exact (steps_set i r _ _ I EV)].
        split; [apply (Inv_dexec U (DSetInQueue i (b64enc dec)) db); [exact V|reflexivity]|]. split; [exact TY|]. rewrite Forall_forall. intros y Y. cbn [withIn dbIn] in Y. apply In_tupd in Y as [z [Y Z]].
        destruct (fst z =? i); subst y; [intros X; discriminate|]. apply (opens_grown db); [exact V|repeat split; left; reflexivity|exact (O _ Y)].
      + destruct (DEL _ eq_refl) as (D1 & D2 & D3). eexists. split; [reflexivity|]. split; [exact NE|]. unfold tryOp. rewrite D1. split; [reflexivity|]. split; [exact D2|exact D3].
    - destruct F as (FD & FL). destruct (ieDec e) as [| |sender text]; [contradiction| |].
      { destruct (DEL _ eq_refl) as (D1 & D2 & D3). eexists. split; [reflexivity|]. split; [exact NE|]. unfold tryOp. rewrite D1. split; [reflexivity|]. split; [exact D2|exact D3]. }
      destruct (isNil sender) eqn:NS.
      { destruct (DEL _ eq_refl) as (D1 & D2 & D3). eexists. split; [reflexivity|]. split; [exact NE|]. unfold tryOp. rewrite D1. split; [reflexivity|]. split; [exact D2|exact D3]. }
      destruct FD as [->|MS]; [discriminate|].
      destruct (tmin (fun _ c0 => isContact (iMy r) sender c0) (dbContacts db)) as [[k cr]|] eqn:TC.
      + assert (GC : getContact U my sender db = Ok (cUnmapped cr, cFull cr, cBlocked cr)).
        { unfold getContact. rewrite MM, MS. cbn [need rbind]. rewrite QU. cbn [rbind]. rewrite TC. apply tmin_some in TC as [J _]. unfold typesOk in TY. rewrite Forall_forall in TY. specialize (TY _ J). cbn [snd] in TY. apply N.leb_le in TY. rewrite TY. reflexivity. }
        rewrite GC. assert (NN : cUnmapped cr <> []). { apply tmin_some in TC as [J _]. destruct (iv_contacts _ _ V) as (_ & FF & _). rewrite Forall_forall in FF. apply (FF _ J). }
        rewrite (isNil_not _ NN). set (drop := cBlocked cr =? BlackList). unfold tryOp.
        destruct (dexec U (DRemoveInQueue i text sender drop) db) as [d| |] eqn:X; cycle 1.
        1,2: exfalso; cbn [dexec] in X; unfold removeInQueue in X; rewrite MS, TG in X; cbn [need fromOpt rbind] in X; unfold qContactUID in X; rewrite TC in X; cbn [rbind] in X; rewrite NA in X; discriminate.
        exists d. split; [reflexivity|]. split; [exact NE|]. split; [reflexivity|]. pose proof (Inv_dexec U _ _ _ V X) as V'. cbn [dexec] in X. unfold removeInQueue in X. rewrite MS, TG in X. cbn [need fromOpt rbind] in X. inv1 X. rewrite NA in X. cbn [rbind] in X. apply Ok_eq in X. subst d.
        apply (ready_del i r db _ R I V'); [repeat split; left; reflexivity|exact TY|reflexivity].
      + assert (GC : getContact U my sender db = Ok ([], [], 0)) by (unfold getContact; rewrite MM, MS; cbn [need rbind]; rewrite QU; cbn [rbind]; rewrite TC; reflexivity).
        rewrite GC. cbn [isNil]. rewrite FL. set (nc := mkContact (iMy r) sender sender [] 0). set (db1 := withContacts (tins nc (dbContacts db)) db).
        assert (TH : thas (fun _ c0 => isContact (iMy r) sender c0) (dbContacts db) = false).
        { destruct (thas _ _) eqn:X; [|reflexivity]. apply thas_true in X as [s [X Y]]. rewrite (tmin_none _ _ TC s X) in Y. discriminate. }
        assert (AC : dexec U (DAddContact my sender sender [] 0) db = Ok db1).
        { cbn [dexec]. unfold addContact. rewrite MM, MS. cbn [need rbind]. rewrite NS. cbn [negb need rbind]. rewrite (mapped_imap _ _ MS). cbn [rbind]. rewrite beq_refl. cbn [need rbind]. rewrite QU. cbn [rbind]. rewrite TH. reflexivity. }
        assert (CA : contactAdd U my sender [] GrayList true db = Ok db1).
        { unfold contactAdd. rewrite (mapped_imap _ _ MM), (mapped_imap _ _ MS). cbn [rbind]. rewrite GC. cbn [rbind isNil negb]. unfold cAdd. rewrite (mapped_imap _ _ MS). cbn [rbind]. rewrite GC. cbn [rbind isNil negb andb]. exact AC. }
        rewrite CA. pose proof (Inv_dexec U _ _ _ V AC) as V1.
        assert (TC1 : exists k, qContactUID (iMy r) sender db1 = Ok k).
        { unfold qContactUID. destruct (tmin _ (dbContacts db1)) as [[k ?]|] eqn:X; [eauto|]. exfalso. apply tmin_none with (s := (nextId (dbContacts db), nc)) in X.
          - cbn [fst snd] in X. unfold isContact, nc in X. cbn [cMy cMapped] in X. rewrite N.eqb_refl, beq_refl in X. discriminate.
          - unfold db1. cbn [withContacts dbContacts]. apply In_tins. right. reflexivity. }
        destruct TC1 as [k TC1]. unfold tryOp.
        assert (NA1 : qNymMapped (iMy r) db1 = Ok my) by exact NA. assert (TG1 : tget i (dbIn db1) = Some r) by exact TG.
        destruct (dexec U (DRemoveInQueue i text sender false) db1) as [d| |] eqn:X; cycle 1.
        1,2: exfalso; cbn [dexec] in X; unfold removeInQueue in X; rewrite MS, TG1 in X; cbn [need fromOpt rbind] in X; rewrite TC1 in X; cbn [rbind] in X; rewrite NA1 in X; discriminate.
        exists d. split; [reflexivity|]. split; [exact NE|]. split; [reflexivity|]. pose proof (Inv_dexec U _ _ _ V1 X) as V'. cbn [dexec] in X. unfold removeInQueue in X. rewrite MS, TG1 in X. cbn [need fromOpt rbind] in X. rewrite TC1 in X. cbn [rbind] in X. rewrite NA1 in X. cbn [rbind] in X. apply Ok_eq in X. subst d.
        apply (ready_del i r db _ R I V'); [split; [reflexivity|split; [reflexivity|right; exists nc; reflexivity]]| |reflexivity].
        unfold typesOk, db1 in *. cbn [withIn withMsgs withContacts dbContacts]. unfold tins. apply Forall_app. split; [exact TY|]. apply Forall_cons; [cbn; lia|apply Forall_nil].
  Qed.
  Lemma procIn_drains : forall evs db, ready db -> Forall fileable evs -> (steps (dbIn db) <= length evs)%nat -> exists db', procIn U M evs db = (db', true) /\ dbIn db' = [].
  Proof.
    induction evs as [|e evs IH]; intros db R F L.
    - destruct (step_ok (mkIev DNoKey true) db R) as [[G E]|(i & my & c & msg & env & d & _ & _ & _ & _ & X)]; [split; [exact Logic.I|reflexivity]| |cbn [length] in L; lia].
      exists db. cbn [procIn]. rewrite G. auto.
    - inversion_clear F as [|? ? F1 F2]. destruct (step_ok e db R F1) as [[G E]|(i & my & c & msg & env & d & G & NE & B & R' & X)]; cbn [procIn]; rewrite G; [eauto|].
      rewrite (isNil_not _ NE), B. cbn [length] in L. apply IH; [exact R'|exact F2|lia].
  Qed.
End Progress.
(* What is missing for C34: envelopes that cannot be opened, decryption errors and senders that cannot be looked up.  Without them the queue is worked off. *)
Theorem C34_progress_partial : forall U M ops evs, let db := drun U ops emptyDB in
  Forall (fun e => cBlocked (snd e) <= 2) (dbContacts db) -> Forall (fun e => opens U M db (snd e)) (dbIn db) ->
  Forall (fileable U) evs -> (steps (dbIn db) <= length evs)%nat ->
  exists db', procIn U M evs db = (db', true) /\ dbIn db' = [].
Proof. intros U M ops evs db T O F L. apply (procIn_drains U M evs db); [split; [apply Inv_drun, Inv_empty|split; assumption]|exact F|exact L]. Qed.
Definition c34evs : list iev := [mkIev (DGot exB (str "hi")) true; mkIev DNoKey true].
Example C34_ex : let db := c36db [DAddInQueue exA [] 6 (str "eA=="); DSetInQueue 2 (str "eA==")] in
  Forall (fun e => cBlocked (snd e) <= 2) (dbContacts db) /\ Forall (fun e => opens goUnicode toyMix db (snd e)) (dbIn db) /\ Forall (fileable goUnicode) c34evs /\ (steps (dbIn db) = 2)%nat.
Proof.
  cbv zeta. split; [vm_compute; repeat constructor; discriminate|]. split; [|split; [repeat (apply Forall_cons; [split; [try (right; vm_compute; reflexivity); exact Logic.I|reflexivity]|]); apply Forall_nil|vm_compute; reflexivity]].
  apply Forall_forall. intros [i r] I. vm_compute in I. destruct I as [I|[I|[]]]; intros E; assert (X : r = snd (i, r)) by reflexivity; rewrite <- I in X; rewrite X in E; discriminate.
Qed.
(* A message at the head that is not base64 (the mix server chooses the text) stops the processing for good: whatever happens
   in any later run, the queue stays as it is and the valid message behind it is never processed. *)
Definition c34db : msgdb := exRun [DAddAccount exA [] (repeat 1 64) (str "b.de") (repeat 2 64) 1 2; DAddInQueue exA [] 5 (str "*"); DAddInQueue exA [] 6 (str "eA=="); DSetInQueue 2 (str "eA==")].
Theorem C34_refuted : exists db, (forall evs, procIn goUnicode toyMix evs db = (db, false)) /\ lenN (dbIn db) = 2.
Proof.
  exists c34db. split; [|vm_compute; reflexivity]. assert (G : getInQueue c34db = Ok (Some (1, exA, [], str "*", true))) by (vm_compute; reflexivity).
  intros [|e evs]; cbn [procIn]; rewrite G; change (isNil exA) with false; cbn iota; [reflexivity|]. unfold inBody.
  assert (O : openEnvelope goUnicode toyMix exA [] (str "*") c34db = Err "illegal base64 data") by reflexivity. rewrite O. reflexivity.
Qed.

(* ------------------------------------------------------------------ *)
(* C37.  Times in nanoseconds; executions are recorded in whole seconds. *)
Definition second : Z := 1000000000.
Theorem C37_due : forall period past now, (exists t, checkExecution period (Ok past) now = Ok (Some t)) <->
  (period = 0 \/ past = 0 \/ past * second + period <= now)%Z.
Proof.
  intros period past now. unfold checkExecution, second. cbn [rbind]. destruct (Z.eqb_spec period 0); [split; eauto|].
  destruct (Z.eqb_spec past 0); cbn [negb andb]; [split; eauto|]. destruct (Z.ltb_spec now (past * 1000000000 + period)); split; intros H0; eauto; [destruct H0; discriminate|lia].
Qed.
(* The recorded time is the time of execution in whole seconds. *)
Theorem C37_record : forall period past now t, checkExecution period past now = Ok (Some t) -> (t * second <= now < (t + 1) * second)%Z.
Proof.
  intros period past now t H. assert (t = now / second)%Z as ->.
  { unfold checkExecution in H. change 1000000000%Z with second in H. destruct (period =? 0)%Z; [congruence|]. destruct past as [p| |]; try discriminate. cbn [rbind] in H. destruct (negb _ && _); congruence. }
  pose proof (Z.mul_div_le now second ltac:(reflexivity)). pose proof (Z.mul_succ_div_gt now second ltac:(reflexivity)). unfold second in *. lia.
Qed.
(* A sequence of upkeep calls of one user at increasing times: consecutive executions are more than the period less a second apart,
   and a call a full period after the last execution is an execution. *)
Fixpoint executions (period past : Z) (calls : list Z) : list Z :=
  match calls with
  | [] => []
  | now :: rest => match checkExecution period (Ok past) now with Ok (Some t) => now :: executions period t rest | _ => executions period past rest end
  end.
Fixpoint spaced (gap : Z) (l : list Z) : Prop :=
  match l with a :: (b :: _) as r => (a + gap < b)%Z /\ spaced gap r | _ => True end.
Lemma executions_after period past calls : (0 < period)%Z -> (0 < past)%Z -> Forall (fun x => (past * second + period <= x)%Z) (firstn 1 (executions period past calls)).
Proof.
  intros P0 P. induction calls as [|now rest IH]; [apply Forall_nil|]. cbn [executions]. destruct (checkExecution period (Ok past) now) as [[t|]| |] eqn:C; try exact IH.
  cbn [firstn]. apply Forall_cons; [|apply Forall_nil]. assert (E : exists t, checkExecution period (Ok past) now = Ok (Some t)) by eauto. apply C37_due in E. lia.
Qed.
Theorem C37_spacing : forall period calls past, (0 < period)%Z -> Forall (fun now => (second <= now)%Z) calls -> spaced (period - second) (executions period past calls).
Proof.
  intros period calls. induction calls as [|now rest IH]; intros past P F; [exact Logic.I|]. inversion_clear F as [|? ? F1 F2]. cbn [executions].
  destruct (checkExecution period (Ok past) now) as [[t|]| |] eqn:C; try (apply IH; assumption).
  pose proof (C37_record _ _ _ _ C) as R. assert (0 < t)%Z by (unfold second in *; lia). pose proof (executions_after period t rest P H) as A. specialize (IH t P F2).
  destruct (executions period t rest) as [|b l]; [exact Logic.I|]. split; [|exact IH]. cbn [firstn] in A. apply Forall_inv in A. lia.
Qed.
Example C37_ex : executions (3600 * second) 0 [5 * second + 7; 1800 * second; 3604 * second; 3605 * second + 1; 9000 * second]%Z = [5 * second + 7; 3605 * second + 1; 9000 * second]%Z.
Proof. reflexivity. Qed.
(* Work that fails is not recorded, so it is done again at the next call; work that succeeds is recorded. *)
Theorem C37_failed_not_recorded : forall U my period now db db', upkeepAccounts U my period now false db = Ok db' -> db' = db.
Proof. intros U my period now db db' H. unfold upkeepAccounts in H. inv1 H. destruct a; [discriminate|]. congruence. Qed.
Theorem C37_recorded : forall U my period now db db' t, upkeepAccounts U my period now true db = Ok db' -> checkExecution period (getUpkeep U nUpAcc my db) now = Ok (Some t) ->
  uidOf my db <> None -> getUpkeep U nUpAcc my db' = Ok t.
Proof.
  intros U my period now db db' t H C N0. unfold upkeepAccounts in H. rewrite C in H. cbn [rbind dexec] in H. unfold setUpkeepAccounts in H. inv1 H. apply Ok_eq in H. subst db'.
  unfold getUpkeep. rewrite E. cbn [need rbind withNyms dbNyms]. unfold uidOf, qNymUID in N0. destruct (tmin _ (dbNyms db)) as [r|] eqn:T; [|congruence].
  destruct (tmin (fun _ n => beq (nMapped n) my) (tupd _ _ _)) as [[i n]|] eqn:T2.
  - apply tmin_some in T2 as [I P]. apply In_tupd in I as [s [I E2]]. cbn [fst snd] in *. destruct (beq (nMapped (snd s)) my) eqn:B.
    + injection E2 as -> ->. reflexivity.
    + rewrite <- E2 in B. cbn [snd] in B. congruence.
  - exfalso. apply tmin_some in T as [I P]. destruct r as [i n]. cbn [fst snd] in *. pose proof (In_upd_at (fun _ n => beq (nMapped n) my) (fun n => mkNym (nMapped n) (nUnmapped n) (nFull n) (nUpAll n) t) _ _ _ I) as J. cbn beta in J. rewrite P in J.
    apply tmin_none with (s := (i, mkNym (nMapped n) (nUnmapped n) (nFull n) (nUpAll n) t)) in T2; [|exact J]. cbn [snd nMapped] in T2. congruence.
Qed.

Print Assumptions C30_commands.
Print Assumptions C31_add_loses.
Print Assumptions C31_refuted.
Print Assumptions C31_edit_partial.
Print Assumptions C31_known_partial.
Print Assumptions C34_progress_partial.
Print Assumptions C34_refuted.
Print Assumptions C36_blocked.
Print Assumptions C36_visible.
Print Assumptions C36_refuted.
Print Assumptions C37_due.
Print Assumptions C37_record.
Print Assumptions C37_spacing.
Print Assumptions C37_failed_not_recorded.
Print Assumptions C37_recorded.
