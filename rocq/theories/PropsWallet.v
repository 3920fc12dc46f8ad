(* The wallet store: C56, C57, C58, C59, C87. *)
From Verif Require Import Base Base64Model Base64Proofs Asn1Model Asn1Proofs Maps SqlModel SqlProofs MsgDBProofs MsgDBSteps WalletModel WalletProofs.
Local Open Scope N_scope.

(* ---------------- examples ---------------- *)
Definition exTok (h : N) (priv : bool) : tokenEntry :=
  mkTE (repeat h 32) (str "token") None (Some (repeat 7 32)) (if priv then Some (repeat 9 64) else None) true true (str "Message") 2000000 None None None None.
Lemma wfb_repeat x n : x < 256 -> wfb (repeat x n).
Proof. intros H. apply Forall_forall. intros y I. apply repeat_spec in I. subst. exact H. Qed.
Lemma valid_exTok h p : h < 256 -> valid (exTok h p).
Proof.
  intros H. unfold valid, exTok, isArr, small. cbn [tHash tToken tPub tPriv tNewPub tNewPriv tParams tPacket tBlind].
  split; [apply wfb_repeat; exact H|]. split; [repeat (constructor; [reflexivity|]); constructor|]. split; [discriminate|].
  split; [split; [reflexivity|apply wfb_repeat; lia]|]. split; [destruct p; [split; [reflexivity|apply wfb_repeat; lia]|exact Logic.I]|]. repeat split.
Qed.
Definition exStore : wdb := wrun [WSet (exTok 1 false); WSet (exTok 2 false); WSet (exTok 3 true)] emptyW.
Lemma good_exStore : good exStore.
Proof. apply good_run; [|apply good_empty]. repeat (apply Forall_cons; [apply valid_exTok; lia|]). apply Forall_nil. Qed.

(* ---------------- C87 ---------------- *)
Lemma get_same db db' h : good db -> good db' -> wfb h -> mget (hexenc h) (wSt db') = mget (hexenc h) (wSt db) ->
  (forall i r, In (i, r) (wTok db) -> wHash r = hexenc h -> exists j l tm, In (j, setLock l tm r) (wTok db')) ->
  (forall j r, In (j, r) (wTok db') -> wHash r = hexenc h -> exists i s, In (i, s) (wTok db) /\ wHash s = hexenc h) ->
  getToken h (-1) db' = getToken h (-1) db.
Proof.
  intros G G' W M F B. destruct (row_or_none db h) as [(i & r & I & E)|N0].
  - destruct (gd_rows _ G _ _ I) as [t R]. rewrite (getToken_row db i r t h (-1) G I R W E). destruct (F _ _ I E) as (j & l & tm & J).
    assert (R' : rowOf db' (setLock l tm r) t).
    { destruct R as (V & g & st & EG & RR & X). split; [exact V|]. exists g, st. split; [exact EG|]. split; [rewrite RR; reflexivity|]. cbn [setLock wParams wState wHash]. rewrite E, M, <- E. exact X. }
    rewrite (getToken_row db' j (setLock l tm r) t h (-1) G' J R' W E). reflexivity.
  - rewrite (getToken_none db h _ N0). apply getToken_none. intros j r J E. destruct (B _ _ J E) as (i & s & I & E'). elim (N0 _ _ I E').
Qed.
Lemma In_lock {p : N -> wRow -> bool} {l tm} {t : tbl wRow} {i r} : In (i, r) t -> In (i, setLock (if p i r then l else wLock r) (if p i r then tm else wTime r) r) (tupd p (setLock l tm) t).
Proof. intros I. apply In_tupd. exists (i, r). split; [exact I|]. cbn [fst snd]. destruct (p i r); [reflexivity|]. rewrite setLock_id. reflexivity. Qed.
Lemma In_lock_inv {p : N -> wRow -> bool} {l tm} {t : tbl wRow} {i r} : In (i, r) (tupd p (setLock l tm) t) -> exists s, In (i, s) t /\ r = setLock (wLock r) (wTime r) s /\ r = (if p i s then setLock l tm s else s).
Proof.
  intros I. apply In_tupd in I as [[j s] [I E]]. cbn [fst snd] in E. destruct (p j s) eqn:P; injection E as -> ->; exists s; (split; [exact I|]); rewrite P; split; try reflexivity. symmetry. apply setLock_id.
Qed.
Lemma get_locks p l tm db h : good db -> wfb h -> getToken h (-1) (mkWdb (tupd p (setLock l tm) (wTok db)) (wSt db)) = getToken h (-1) db.
Proof.
  intros G W. apply get_same; [exact G|apply good_locks, G|exact W|reflexivity| |]; cbn [wTok].
  - intros i r I E. do 3 eexists. apply In_lock, I.
  - intros j r J E. apply In_lock_inv in J as (s & I & R & _). exists j, s. split; [exact I|]. rewrite R in E. exact E.
Qed.
Lemma get_lock db o h : good db -> wfb h -> match o with WLock _ _ _ | WUnlock _ | WClean _ _ => True | _ => False end -> getToken h (-1) (wstep db o) = getToken h (-1) db.
Proof.
  intros G W O. destruct o; try (elim O); cbn [wstep].
  - unfold lockToken. destruct (thas _ _); [|reflexivity]. apply get_locks; assumption.
  - apply get_locks; assumption.
  - apply get_locks; assumption.
Qed.
Lemma del_other db h h' : good db -> wfb h -> wfb h' -> h' <> h -> getToken h (-1) (delToken h' db) = getToken h (-1) db.
Proof.
  intros G W W' N0. assert (NE : hexenc h <> hexenc h') by (intros Q; apply N0; symmetry; apply hexenc_inj; assumption).
  apply get_same; [exact G|apply good_del; assumption|exact W| | |]; unfold delToken, delState, delRow; cbn [wTok wSt].
  - apply mget_mdel_other, NE.
  - intros i r I E. exists i, (wLock r), (wTime r). rewrite setLock_id. apply In_tdel. split; [exact I|]. cbn [fst snd]. unfold sameHash. apply beq_neq. congruence.
  - intros j r J E. apply In_tdel in J as [J _]. eauto.
Qed.
Lemma del_same db h : getToken h (-1) (delToken h db) = Err "sql: no rows in result set".
Proof.
  apply getToken_none. intros i r I E. unfold delToken, delState, delRow in I. cbn [wTok] in I. apply In_tdel in I as [_ B]. cbn [fst snd] in B. unfold sameHash in B. rewrite E, beq_refl in B. discriminate.
Qed.
Lemma set_rows t g st db : valid t -> encodeToken t = Ok (g, st) -> good db ->
  (exists j l tm, In (j, setLock l tm g) (wTok (setState (wHash g) st (setRow g db)))) /\
  (forall i r, wHash r <> wHash g -> (In (i, r) (wTok (setState (wHash g) st (setRow g db))) <-> In (i, r) (wTok db))).
Proof.
  intros V E G. destruct (decode_encode t g st 0 0 V E) as (_ & _ & _ & _ & _ & _ & _ & _ & LK & TM).
  assert (TK : wTok (setState (wHash g) st (setRow g db)) = wTok (setRow g db)) by (unfold setState; destruct st; reflexivity). rewrite TK. unfold setRow.
  destruct (thas (sameHash (wHash g)) (wTok db)) eqn:TH; cbn [wTok]; split.
  - apply thas_true in TH as [[i r] [I B]]. cbn [fst snd] in B. exists i, (wLock r), (wTime r). apply In_tupd. exists (i, r). split; [exact I|]. cbn [fst snd]. rewrite B. reflexivity.
  - intros i r N0. rewrite In_tupd. split.
    + intros [[j s] [I Q]]. cbn [fst snd] in Q. unfold sameHash in Q. destruct (beq (wHash s) (wHash g)) eqn:B; [|congruence].
      elim N0. replace r with (snd (i, r)) by reflexivity. rewrite Q. reflexivity.
    + intros I. exists (i, r). split; [exact I|]. cbn [fst snd]. unfold sameHash. destruct (beq (wHash r) (wHash g)) eqn:B; [apply beq_spec in B; elim (N0 B)|reflexivity].
  - exists (nextId (wTok db)), 0%Z, 0%Z. apply In_tins. right. pose proof (setLock_id g) as Q. rewrite LK, TM in Q. rewrite Q. reflexivity.
  - intros i r N0. rewrite In_tins. split; [|auto]. intros [I|I]; [exact I|]. congruence.
Qed.
Lemma get_set t db h : valid t -> good db -> wfb h -> getToken h (-1) (wstep db (WSet t)) = if beq (tHash t) h then Ok (norm t) else getToken h (-1) db.
Proof.
  intros V G W. assert (G' : good (wstep db (WSet t))) by (apply good_step; [exact V|exact G]). cbn [wstep] in *. unfold setToken in *. destruct (encode_ok t V) as (g & st & E). rewrite E in *. cbn [rbind] in *.
  destruct (decode_encode t g st 0 0 V E) as (HG & _). destruct (set_rows t g st db V E G) as [(j & l & tm & J) O].
  destruct (beq (tHash t) h) eqn:B.
  - apply beq_spec in B. subst h. destruct (gd_rows _ G' _ _ J) as [t' R'].
    destruct (decode_encode t g st tm l V E) as (_ & D & _ & ST & _). unfold getToken. replace (hexenc (tHash t)) with (wHash (setLock l tm g)) by (cbn [setLock wHash]; exact HG).
    rewrite (get_row _ _ _ G' J). cbn [Z.leb andb Z.compare]. destruct (wParams (setLock l tm g) || wState (setLock l tm g)) eqn:PS; cbn [setLock wParams wState wHash] in *.
    + destruct (decode_encode t g st 0 0 V E) as (_ & _ & NE & _). specialize (NE PS). unfold setState. destruct st as [|c st]; [congruence|]. cbn [wSt]. rewrite mget_mset_same. cbn [opt rbind]. exact D.
    + cbn [rbind]. specialize (ST PS). subst st. exact D.
  - assert (NE : hexenc h <> wHash g). { rewrite HG. intros Q. apply hexenc_inj in Q; [|assumption|apply V]. rewrite Q, beq_refl in B. discriminate. }
    apply get_same; [exact G|exact G'|exact W| | |].
    + unfold setState, setRow. destruct st; destruct (thas _ _); cbn [wSt]; try reflexivity; apply mget_mset_other; exact NE.
    + intros i r I Er. exists i, (wLock r), (wTime r). rewrite setLock_id. apply O; [congruence|exact I].
    + intros i r I Er. exists i, r. split; [|exact Er]. apply (O i r); [congruence|exact I].
Qed.
Lemma get_dels hs : forall db h, good db -> Forall wfb hs -> wfb h -> ~ In h hs -> getToken h (-1) (fold_left (fun d x => delToken x d) hs db) = getToken h (-1) db.
Proof.
  induction hs as [|x hs IH]; intros db h G F W N0; [reflexivity|]. inversion_clear F. cbn [fold_left]. rewrite IH; [|apply good_del; assumption|assumption|exact W|intros Q; apply N0; right; exact Q].
  apply del_other; try assumption. intros ->. apply N0. left. reflexivity.
Qed.
Lemma dels_rows hs : forall db i r, In (i, r) (wTok (fold_left (fun d x => delToken x d) hs db)) -> In (i, r) (wTok db) /\ forall x, In x hs -> wHash r <> hexenc x.
Proof.
  induction hs as [|x hs IH]; intros db i r I; [split; [exact I|intros ? []]|]. cbn [fold_left] in I. apply IH in I as [I Q]. unfold delToken, delState, delRow in I. cbn [wTok] in I. apply In_tdel in I as [I B]. cbn [fst snd] in B.
  split; [exact I|]. intros y [<-|Y]; [|exact (Q y Y)]. unfold sameHash in B. apply beq_neq in B. exact B.
Qed.
(* the history of one token: what was stored last and not deleted since; expiry may delete it once it is a week too old *)
Inductive lastSet (h : bytes) : list wop -> option tokenEntry -> Prop :=
| ls_nil : lastSet h [] None
| ls_set ops t x : lastSet h ops x -> lastSet h (ops ++ [WSet t]) (if beq (tHash t) h then Some t else x)
| ls_del ops h' x : lastSet h ops x -> lastSet h (ops ++ [WDel h']) (if beq h' h then None else x)
| ls_keep ops o x : lastSet h ops x -> match o with WLock _ _ _ | WUnlock _ | WClean _ _ | WExpire _ | WCache _ => True | _ => False end -> lastSet h (ops ++ [o]) x
| ls_expire ops now t : lastSet h ops (Some t) -> (tExpire t < now - 604800)%Z -> lastSet h (ops ++ [WExpire now]) None.
Lemma wrun_app a b db : wrun (a ++ b) db = wrun b (wrun a db).
Proof. unfold wrun. apply fold_left_app. Qed.
Lemma get_cache db d h : good db -> wfb h -> getToken h (-1) (wstep db (WCache d)) = getToken h (-1) db.
Proof.
  intros G W. cbn [wstep]. unfold getToken. cbn [wTok wSt]. rewrite mget_mset_other by apply hexenc_cacheKey. reflexivity.
Qed.
Theorem C87_read_back : forall h ops, wfb h -> Forall okOp ops ->
  exists x, lastSet h ops x /\
    match x with Some t => getToken h (-1) (wrun ops emptyW) = Ok (norm t) | None => exists e, getToken h (-1) (wrun ops emptyW) = Err e end.
Proof.
  intros h ops W. induction ops as [|o ops IH] using rev_ind; intros F.
  - exists None. split; [constructor|]. eexists. reflexivity.
  - apply Forall_app in F as [F1 F2]. apply Forall_inv in F2. destruct (IH F1) as (x & L & E). pose proof (good_run ops emptyW F1 good_empty) as G. rewrite wrun_app. set (db := wrun ops emptyW) in *. change (wrun [o] db) with (wstep db o).
    assert (SAME : getToken h (-1) (wstep db o) = getToken h (-1) db -> match x with Some t => getToken h (-1) (wstep db o) = Ok (norm t) | None => exists e, getToken h (-1) (wstep db o) = Err e end) by (intros ->; exact E).
    destruct o.
    + exists (if beq (tHash t) h then Some t else x). split; [constructor; exact L|]. rewrite (get_set t db h F2 G W). destruct (beq (tHash t) h); [reflexivity|exact E].
    + exists (if beq h0 h then None else x). split; [constructor; exact L|]. cbn [wstep]. destruct (beq h0 h) eqn:B.
      * apply beq_spec in B. subst. rewrite del_same. eauto.
      * cbn [wstep] in SAME. apply SAME. apply del_other; auto. intros ->. rewrite beq_refl in B. discriminate.
    + exists x. split; [apply ls_keep; auto|]. apply SAME. apply get_lock; auto.
    + exists x. split; [apply ls_keep; auto|]. apply SAME. apply get_lock; auto.
    + exists x. split; [apply ls_keep; auto|]. apply SAME. apply get_lock; auto.
    + destruct (in_dec (list_eq_dec N.eq_dec) h (expired now db)) as [I|N0].
      * destruct (In_expired now db h G I) as (_ & i & r & IR & ER & XR). destruct (gd_rows _ G _ _ IR) as [t R]. pose proof (getToken_row db i r t h (-1) G IR R W ER) as GT. cbn [Z.leb Z.compare andb] in GT.
        destruct x as [t'|]; [|destruct E as [e E]; congruence]. rewrite GT in E.
        assert (XE : tExpire t' = tExpire t) by (assert (Q : norm t = norm t') by congruence; exact (eq_sym (f_equal tExpire Q))).
        assert (XT : wExpire r = tExpire t). { destruct R as (V & g & st & EG & RR & _). destruct (decode_encode t g st 0 0 V EG) as (_ & _ & _ & _ & _ & _ & _ & X & _). rewrite RR. exact X. }
        exists None. split; [apply (ls_expire h ops now t' L); rewrite XE, <- XT; exact XR|].
        eexists. apply getToken_none. intros j s J Q. cbn [wstep] in J. unfold expireUnusable in J. cbn [snd] in J. apply dels_rows in J as [_ Z0]. elim (Z0 h I Q).
      * exists x. split; [apply ls_keep; auto|]. apply SAME. cbn [wstep]. unfold expireUnusable. cbn [snd]. apply get_dels; auto. rewrite Forall_forall. intros y Y. apply (In_expired now db y G Y).
    + exists x. split; [apply ls_keep; auto|]. apply SAME. apply get_cache; auto.
Qed.
(* a token is changed by storing it only if it has a new owner but no parameters or packet, or empty slices *)
Theorem C87_same_partial : forall t, (tNewPub t <> None -> tParams t <> None \/ tPacket t <> None \/ tBlind t <> None \/ tNewPriv t <> None) ->
  tParams t <> Some [] -> tPacket t <> Some [] -> tBlind t <> Some [] -> norm t = t.
Proof.
  intros t K A B C. destruct t as [h tok pa pu pr rn ri us ex pk bl np nq]. unfold norm, kept, normOpt, oneOf, orNil. cbn [tHash tToken tParams tPub tPriv tRenew tReissue tUsage tExpire tPacket tBlind tNewPub tNewPriv] in *.
  assert (X : forall o : option bytes, o <> Some [] -> oneOf (orNil o) = o). { intros [[|c o]|] Q; [elim Q; reflexivity|reflexivity|reflexivity]. }
  unfold oneOf, orNil in X. rewrite !X by assumption. destruct np as [np|]; [|destruct (_ || _); reflexivity].
  assert (KT : isSome pk || isSome bl || isSome nq || isSome pa = true).
  { destruct (K ltac:(discriminate)) as [Q|[Q|[Q|Q]]]; [destruct pa|destruct pk|destruct bl|destruct nq]; try congruence; cbn [isSome]; rewrite ?orb_true_r; reflexivity. }
  rewrite KT. reflexivity.
Qed.
Example C87_ex : lastSet (repeat 2 32) [WSet (exTok 2 false); WLock (repeat 2 32) 5 100; WSet (exTok 1 true); WClean true 200] (Some (exTok 2 false)) /\
  norm (exTok 2 false) = exTok 2 false.
Proof.
  split; [|reflexivity]. apply (ls_keep _ [WSet (exTok 2 false); WLock (repeat 2 32) 5 100; WSet (exTok 1 true)]); [|exact Logic.I].
  apply (ls_set (repeat 2 32) [WSet (exTok 2 false); WLock (repeat 2 32) 5 100] (exTok 1 true) (Some (exTok 2 false))). apply (ls_keep _ [WSet (exTok 2 false)]); [|exact Logic.I].
  apply (ls_set (repeat 2 32) [] (exTok 2 false) None). constructor.
Qed.
Definition exNewPub : tokenEntry :=
  mkTE (repeat 4 32) (str "token") None (Some (repeat 7 32)) None true true (str "Message") 2000000 None None (Some (repeat 8 32)) None.
Theorem C87_refuted : exists t db, valid t /\ setToken t emptyW = Ok db /\ getToken (tHash t) (-1) db <> Ok t.
Proof.
  exists exNewPub. eexists. split; [|split; [reflexivity|]].
  - unfold valid, exNewPub, isArr, small. cbn [tHash tToken tPub tPriv tNewPub tNewPriv tParams tPacket tBlind]. split; [apply wfb_repeat; lia|]. split; [repeat (constructor; [reflexivity|]); constructor|]. split; [discriminate|].
    split; [split; [reflexivity|apply wfb_repeat; lia]|]. split; [exact Logic.I|]. split; [split; [reflexivity|apply wfb_repeat; lia]|]. repeat split.
  - vm_compute. discriminate.
Qed.

(* ---------------- C56 ---------------- *)
(* no row carries the lock ID *)
Definition freshId (id : Z) (db : wdb) : Prop := forall i r, In (i, r) (wTok db) -> wLock r <> id.
(* the token [h] is in the wallet with lock ID [id] *)
Definition lockedBy (h : bytes) (id : Z) (db : wdb) : Prop := exists i r, In (i, r) (wTok db) /\ wHash r = hexenc h /\ wLock r = id.
(* steps that neither release the lock of [h] nor draw its lock ID again *)
Definition leaves (h : bytes) (id : Z) (db : wdb) (o : wop) : Prop :=
  match o with
  | WUnlock h' | WDel h' => h' <> h
  | WLock _ id' _ => id' <> id
  | WClean _ _ => False
  | WExpire now => forall i r, In (i, r) (wTok db) -> wHash r = hexenc h -> (now - 604800 <= wExpire r)%Z
  | _ => True
  end.
Fixpoint allLeave (h : bytes) (id : Z) (db : wdb) (ops : list wop) : Prop :=
  match ops with [] => True | o :: ops' => leaves h id db o /\ allLeave h id (wstep db o) ops' end.
Lemma lock_ok h id now db db' : good db -> (0 < id)%Z -> freshId id db -> lockToken h id now db = (id, db') -> lockedBy h id db'.
Proof.
  intros G P F E. unfold lockToken in E. destruct (thas _ _) eqn:T; [|assert ((-1)%Z = id) by congruence; lia]. assert (db' = mkWdb (tupd (lockable (hexenc h) id) (setLock id now) (wTok db)) (wSt db)) as -> by congruence.
  apply thas_true in T as [[i r] [I B]]. cbn [fst snd] in B. exists i, (setLock id now r). split; [|split; [|reflexivity]].
  - cbn [wTok]. apply In_tupd. exists (i, r). split; [exact I|]. cbn [fst snd]. rewrite B. reflexivity.
  - unfold lockable in B. apply orb_true_iff in B as [B|B]; [apply andb_true_iff in B as [B _]; apply beq_spec in B; exact B|]. apply Z.eqb_eq in B. elim (F _ _ I B).
Qed.
Lemma leaves_step h id db o : good db -> wfb h -> okOp o -> id <> 0%Z -> lockedBy h id db -> leaves h id db o -> lockedBy h id (wstep db o).
Proof.
  intros G W O NZ (i & r & I & E & L) LV. destruct o; cbn [wstep leaves okOp] in *.
  - unfold setToken. destruct (encode_ok t O) as (g & st & EG). rewrite EG. cbn [rbind].
    assert (TK : wTok (setState (wHash g) st (setRow g db)) = wTok (setRow g db)) by (unfold setState; destruct st; reflexivity). unfold lockedBy. rewrite TK. unfold setRow. destruct (thas _ _); cbn [wTok].
    + destruct (beq (wHash r) (wHash g)) eqn:B.
      * exists i. eexists. split; [apply In_tupd; exists (i, r); split; [exact I|]; cbn [fst snd]; unfold sameHash; rewrite B; reflexivity|]. cbn [wHash wLock]. apply beq_spec in B. split; congruence.
      * exists i, r. split; [|auto]. apply In_tupd. exists (i, r). split; [exact I|]. cbn [fst snd]. unfold sameHash. rewrite B. reflexivity.
    + exists i, r. split; [|auto]. apply In_tins. left. exact I.
  - exists i, r. split; [|auto]. unfold delToken, delState, delRow. cbn [wTok]. apply In_tdel. split; [exact I|]. cbn [fst snd]. unfold sameHash. apply beq_neq. rewrite E. intros Q. apply LV. symmetry. apply hexenc_inj; assumption.
  - unfold lockToken. destruct (thas _ _); [|exists i, r; auto]. cbn [snd]. exists i, r. split; [|auto]. cbn [wTok]. apply In_tupd. exists (i, r). split; [exact I|]. cbn [fst snd].
    unfold lockable. replace (wLock r =? 0)%Z with false by (symmetry; apply Z.eqb_neq; congruence). replace (wLock r =? id0)%Z with false by (symmetry; apply Z.eqb_neq; congruence). rewrite andb_false_r. reflexivity.
  - exists i, r. split; [|auto]. unfold unlockToken. cbn [wTok]. apply In_tupd. exists (i, r). split; [exact I|]. cbn [fst snd]. unfold sameHash.
    destruct (beq (wHash r) (hexenc h0)) eqn:B; [|reflexivity]. apply beq_spec in B. elim LV. apply hexenc_inj; congruence.
  - elim LV.
  - exists i, r. split; [|auto]. unfold expireUnusable. cbn [snd].
    assert (NI : ~ In h (expired now db)). { intros Q. destruct (In_expired now db h G Q) as (_ & j & s & J & EJ & XJ). specialize (LV _ _ J EJ). unfold expireEdge in XJ. lia. }
    assert (FW : Forall wfb (expired now db)) by (rewrite Forall_forall; intros y Y; apply (In_expired now db y G Y)).
    fold (expired now db). revert NI FW I. generalize (expired now db). intros hs. generalize db. clear - E W. induction hs as [|x hs IH]; intros db NI FW I; [exact I|]. cbn [fold_left]. inversion_clear FW. apply IH; [intros Q; apply NI; right; exact Q|assumption|].
    unfold delToken, delState, delRow. cbn [wTok]. apply In_tdel. split; [exact I|]. cbn [fst snd]. unfold sameHash. apply beq_neq. rewrite E. intros Q. apply NI. left. symmetry. apply hexenc_inj; assumption.
  - exists i, r. auto.
Qed.
Lemma leaves_run h id ops : forall db, good db -> wfb h -> Forall okOp ops -> id <> 0%Z -> lockedBy h id db -> allLeave h id db ops -> lockedBy h id (wrun ops db).
Proof.
  induction ops as [|o ops IH]; intros db G W F NZ L A; [exact L|]. inversion_clear F. destruct A as [A1 A2]. cbn [wrun fold_left]. apply IH; auto; [apply good_step; assumption|]. apply leaves_step; assumption.
Qed.
Lemma first_some p t r : first p t = Some r -> exists i, In (i, r) t /\ p r = true.
Proof.
  induction t as [|[i s] t IH]; [discriminate|]. cbn [first]. destruct (p s) eqn:P.
  - destruct (first p t) as [r'|]; [|intros E; assert (s = r) as -> by congruence; exists i; split; [left; reflexivity|exact P]].
    destruct (wExpire r' <? wExpire s)%Z; intros E; [destruct (IH E) as [j [J Q]]; exists j; split; [right; exact J|exact Q]|]. assert (s = r) as -> by congruence. exists i. split; [left; reflexivity|exact P].
  - intros E. destruct (IH E) as [j [J Q]]. exists j. split; [right; exact J|exact Q].
Qed.
Lemma first_none p t : first p t = None -> forall i r, In (i, r) t -> p r = false.
Proof.
  induction t as [|[i s] t IH]; [intros _ ? ? []|]. cbn [first]. destruct (p s) eqn:P.
  - destruct (first p t) as [r'|]; [destruct (_ <? _)%Z|]; discriminate.
  - intros E j r [Q|J]; [congruence|]. exact (IH E j r J).
Qed.
(* the least Expire *)
Lemma first_least p t r : first p t = Some r -> forall i s, In (i, s) t -> p s = true -> (wExpire r <= wExpire s)%Z.
Proof.
  revert r. induction t as [|[i s] t IH]; [discriminate|]. intros r. cbn [first]. destruct (p s) eqn:P.
  - destruct (first p t) as [r'|] eqn:F.
    + specialize (IH r' eq_refl). destruct (wExpire r' <? wExpire s)%Z eqn:L; intros E j q [Q|J] PQ; assert (X := E).
      * apply Z.ltb_lt in L. assert (r' = r) as <- by congruence. assert (s = q) as <- by congruence. lia.
      * assert (r' = r) as <- by congruence. eapply IH; eassumption.
      * assert (s = r) as <- by congruence. assert (s = q) as <- by congruence. lia.
      * apply Z.ltb_ge in L. assert (s = r) as <- by congruence. specialize (IH _ _ J PQ). lia.
    + intros E j q [Q|J] PQ; assert (s = r) as <- by congruence; [assert (s = q) as <- by congruence; lia|]. rewrite (first_none _ _ F _ _ J) in PQ. discriminate.
  - intros E j q [Q|J] PQ; [congruence|]. eapply IH; eassumption.
Qed.
Lemma get_hash db h l t : good db -> wfb h -> getToken h l db = Ok t -> tHash t = h.
Proof.
  intros G W E. destruct (row_or_none db h) as [(i & r & I & EH)|N0]; [|rewrite getToken_none in E by exact N0; discriminate].
  destruct (gd_rows _ G _ _ I) as [t0 R]. rewrite (getToken_row db i r t0 h l G I R W EH) in E. destruct (_ && _ && _); [discriminate|]. assert (t = norm t0) as -> by congruence.
  destruct R as (V & g & st & EG & RR & _). destruct (decode_encode t0 g st 0 0 V EG) as (HG & _). cbn [norm tHash]. apply hexenc_inj; [apply V|exact W|]. rewrite <- HG, <- EH, RR. reflexivity.
Qed.
(* GetAndLockToken returns only tokens that were not locked *)
Lemma getAndLock_unlocked n usage owner ids now h l : forall db db' t, good db -> wfb h -> lockedBy h l db -> l <> 0%Z -> ~ In l ids ->
  getAndLockN n usage owner ids now db = (Ok t, db') -> tHash t <> h.
Proof.
  revert ids. induction n as [|n IH]; intros ids db db' t G W LB NZ NI E; [discriminate|]. destruct ids as [|id ids]; [discriminate|]. cbn [getAndLockN] in E.
  destruct (getAndLock1 usage owner id now db) as [r d] eqn:G1. unfold getAndLock1 in G1. destruct (first _ _) as [row|] eqn:FI; [|injection G1 as <- <-; discriminate].
  apply first_some in FI as (i & I & U). destruct (good_hash _ _ _ G I) as (hr & WR & ER & HR). rewrite HR in G1. destruct (lockToken hr id now db) as [l' d'] eqn:LT.
  assert (Gd : good d') by (pose proof (good_lockToken hr id now db G) as Q; rewrite LT in Q; exact Q).
  assert (LD : lockedBy h l d').
  { pose proof (leaves_step h l db (WLock hr id now) G W) as Q. cbn [wstep okOp leaves] in Q. rewrite LT in Q. apply Q; auto. intros ->. apply NI. left. reflexivity. }
  assert (HNE : hr <> h).
  { intros ->. destruct LB as (j & s & J & ES & LS). assert (Q : (i, row) = (j, s)) by (apply (row_unique db); auto; congruence). unfold usable in U. rewrite !andb_true_iff in U. destruct U as ((((U & _) & _) & _) & _). apply Z.eqb_eq in U. congruence. }
  destruct (l' <=? 0)%Z.
  - injection G1 as <- <-. cbn [isErr] in E. rewrite String.eqb_refl in E. eapply IH; [exact Gd|exact W|exact LD|exact NZ| |exact E]. intros Q. apply NI. right. exact Q.
  - injection G1 as <- <-. destruct (getToken hr l' d') as [t'|e|] eqn:GT; cbn [isErr] in E.
    + injection E as <- <-. rewrite (get_hash _ _ _ _ Gd WR GT). exact HNE.
    + destruct (String.eqb e errLocked); [|discriminate]. eapply IH; [exact Gd|exact W|exact LD|exact NZ| |exact E]. intros Q. apply NI. right. exact Q.
    + discriminate.
Qed.
(* A caller whose positive lock ID is not in use keeps the token: until it is released, deleted or cleaned nobody else
   locks it, reads it with a lock ID of their own or obtains it from GetAndLockToken.  Missing for the full claim: lock IDs
   are not unique, cleaning releases fresh locks (C57) and ReissueToken ignores a failed lock. *)
Theorem C56_exclusive_partial : forall h id now db db1 ops, good db -> wfb h -> (0 < id)%Z -> freshId id db -> lockToken h id now db = (id, db1) ->
  Forall okOp ops -> allLeave h id db1 ops -> let db2 := wrun ops db1 in
  (forall id2 now2, id2 <> id -> freshId id2 db2 -> lockToken h id2 now2 db2 = ((-1)%Z, db2)) /\
  (forall id2, (0 <= id2)%Z -> id2 <> id -> getToken h id2 db2 = Err errLocked) /\
  (forall usage owner ids now2 t db3, ~ In id ids -> getAndLockToken usage owner ids now2 db2 = (Ok t, db3) -> tHash t <> h) /\
  exists t, getToken h id db2 = Ok t.
Proof.
  intros h id now db db1 ops G W P F E FO AL db2. assert (G1 : good db1) by (pose proof (good_lockToken h id now db G) as Q; rewrite E in Q; exact Q).
  pose proof (lock_ok h id now db db1 G P F E) as L1. assert (L2 : lockedBy h id db2) by (apply leaves_run; auto; lia). assert (G2 : good db2) by (apply good_run; assumption).
  destruct L2 as (i & r & I & EH & LK). destruct (gd_rows _ G2 _ _ I) as [t R].
  split; [|split; [|split]].
  - intros id2 now2 NE F2. unfold lockToken. destruct (thas _ _) eqn:T; [|reflexivity]. apply thas_true in T as [[j s] [J B]]. cbn [fst snd] in B. unfold lockable in B. apply orb_true_iff in B as [B|B].
    + apply andb_true_iff in B as [B1 B2]. apply beq_spec in B1. apply Z.eqb_eq in B2. assert (Q : (i, r) = (j, s)) by (apply (row_unique db2); auto; congruence). assert (wLock s = id) by congruence. lia.
    + apply Z.eqb_eq in B. elim (F2 _ _ J B).
  - intros id2 P2 NE. rewrite (getToken_row db2 i r t h id2 G2 I R W EH). rewrite LK. replace (0 <=? id2)%Z with true by (symmetry; apply Z.leb_le; lia). replace (id =? 0)%Z with false by (symmetry; apply Z.eqb_neq; lia). replace (id =? id2)%Z with false by (symmetry; apply Z.eqb_neq; lia). reflexivity.
  - intros usage owner ids now2 t' db3 NI EG. eapply getAndLock_unlocked; [exact G2|exact W|exists i, r; eauto| |exact NI|exact EG]. lia.
  - exists (norm t). rewrite (getToken_row db2 i r t h id G2 I R W EH), LK, Z.eqb_refl. rewrite andb_false_r. reflexivity.
Qed.
Example C56_ex : exists db1, good exStore /\ freshId 77 exStore /\ lockToken (repeat 1 32) 77 100 exStore = (77%Z, db1) /\
  allLeave (repeat 1 32) 77 db1 [WSet (exTok 1 false); WLock (repeat 2 32) 78 101; WUnlock (repeat 2 32); WExpire 102].
Proof.
  eexists. split; [apply good_exStore|]. split; [|split].
  - intros i r I. vm_compute in I. repeat (destruct I as [I|I]; [injection I as _ <-; discriminate|]). elim I.
  - reflexivity.
  - cbn [allLeave leaves]. split; [exact Logic.I|]. split; [lia|]. split; [discriminate|]. split; [|exact Logic.I].
    intros i r I _. vm_compute in I. repeat (destruct I as [I|I]; [injection I as _ <-; cbn [wExpire]; lia|]). elim I.
Qed.
(* Two callers that draw the same lock ID (it is seeded with the clock) both get the lock. *)
Theorem C56_ids_refuted : exists db h id now db1 db2, good db /\ (0 < id)%Z /\ freshId id db /\
  lockToken h id now db = (id, db1) /\ lockToken h id now db1 = (id, db2) /\ is_ok (getToken h id db2) = true.
Proof.
  exists exStore, (repeat 1 32), 77%Z, 100%Z. do 2 eexists. split; [apply good_exStore|]. split; [lia|]. split; [|split; [reflexivity|split; [vm_compute; reflexivity|vm_compute; reflexivity]]].
  intros i r I. vm_compute in I. repeat (destruct I as [I|I]; [injection I as _ <-; discriminate|]). elim I.
Qed.
(* LockToken reports success for a locked token if the ID drawn locks some other token: "Hash=? AND LockID=0 OR LockID=?". *)
Theorem C56_precedence_refuted : exists db h h' id id', good db /\ lockedBy h id db /\ lockedBy h' id' db /\ h <> h' /\ id <> id' /\
  fst (lockToken h id' 100 db) = id'.
Proof.
  exists (wrun [WLock (repeat 1 32) 5 90; WLock (repeat 2 32) 6 90] exStore), (repeat 1 32), (repeat 2 32), 5%Z, 6%Z.
  split; [apply good_run; [repeat (apply Forall_cons; [apply wfb_repeat; lia|]); apply Forall_nil|apply good_exStore]|].
  split; [exists 1; eexists; split; [vm_compute; left; reflexivity|split; reflexivity]|]. split; [exists 2; eexists; split; [vm_compute; right; left; reflexivity|split; reflexivity]|].
  split; [discriminate|]. split; [discriminate|]. vm_compute. reflexivity.
Qed.
(* ReissueToken on a token locked by someone else goes ahead, replaces it and releases the other's lock. *)
Definition exEnv : reissueEnv := mkRE true 6 true (Some (str "params")) (Some (str "packet", str "factors")) true (Some (repeat 5 32, str "new", str "Message", 3000000%Z)).
Definition exHeld : wdb := wrun [WLock (repeat 3 32) 5 90] exStore.
Definition exOwner : option bytes := Some (repeat 12 32).
Definition exHeldRun : run := reissueToken (repeat 3 32) exOwner 100 exEnv exHeld.
Theorem C56_refuted : exists db h id owner now e tr h', good db /\ lockedBy h id db /\ (0 < id)%Z /\ freshId (reID e) db /\
  reissueToken h owner now e db = (tr, Ok h') /\ (exists err, getToken h id (hd emptyW tr) = Err err).
Proof.
  exists exHeld, (repeat 3 32), 5%Z, exOwner, 100%Z, exEnv, (fst exHeldRun), (repeat 5 32).
  split; [apply good_run; [apply Forall_cons; [apply wfb_repeat; lia|apply Forall_nil]|apply good_exStore]|].
  split; [exists 3; eexists; split; [vm_compute; right; right; left; reflexivity|split; reflexivity]|]. split; [lia|].
  split; [intros i r I; vm_compute in I; repeat (destruct I as [I|I]; [injection I as _ <-; discriminate|]); elim I|].
  split; [vm_compute; reflexivity|]. exists "sql: no rows in result set"%string. vm_compute. reflexivity.
Qed.

(* ---------------- C57 ---------------- *)
(* what the comment promises: exactly the locks older than the maximum lock age are released *)
Definition cleanSpec (now : Z) (r r' : wRow) : Prop :=
  if negb (wTime r =? 0)%Z && (wTime r <? now - maxLockAge)%Z then r' = setLock 0 0 r else r' = r.
Definition exLocked : wdb := wrun [WLock (repeat 1 32) 5 10000] exStore.
Theorem C57_refuted : exists db now i r r', In (i, r) (wTok db) /\ In (i, r') (wTok (cleanLocks false now db)) /\ (wTime r = now)%Z /\ wLock r <> 0%Z /\ wLock r' = 0%Z /\ ~ cleanSpec now r r'.
Proof.
  exists exLocked, 10000%Z, 1. do 2 eexists. split; [vm_compute; left; reflexivity|]. split; [vm_compute; left; reflexivity|]. split; [reflexivity|]. split; [discriminate|]. split; [reflexivity|]. vm_compute. discriminate.
Qed.
(* every lock of the past is released, however fresh *)
Theorem C57_all_released : forall now db i r, In (i, r) (wTok (cleanLocks false now db)) -> wTime r <> 0%Z -> (now + 3600 <= wTime r)%Z.
Proof.
  intros now db i r I N0. unfold cleanLocks in I. cbn [wTok] in I. apply In_lock_inv in I as (s & I & _ & E). cbn beta in E. destruct (negb (wTime s =? 0)%Z && (wTime s <? now + maxLockAge)%Z) eqn:B.
  - rewrite E in N0. cbn [setLock wTime] in N0. congruence.
  - subst r. apply andb_false_iff in B as [B|B]; [apply negb_false_iff, Z.eqb_eq in B; congruence|]. apply Z.ltb_ge in B. unfold maxLockAge in B. exact B.
Qed.
(* stale locks are released, tokens that are not locked and all other columns stay; missing: fresh locks stay *)
Theorem C57_stale_partial : forall now db i, (0 <= now)%Z ->
  (forall r, In (i, r) (wTok db) -> exists r', In (i, r') (wTok (cleanLocks false now db)) /\ r' = setLock (wLock r') (wTime r') r /\
     ((0 < wTime r < now - 3600)%Z -> wLock r' = 0%Z /\ wTime r' = 0%Z) /\ (wTime r = 0%Z -> r' = r)) /\
  (forall r', In (i, r') (wTok (cleanLocks false now db)) -> exists r, In (i, r) (wTok db) /\ r' = setLock (wLock r') (wTime r') r) /\
  wSt (cleanLocks false now db) = wSt db.
Proof.
  intros now db i P. split; [|split; [|reflexivity]].
  - intros r I. set (p := fun (_ : N) r0 => negb (wTime r0 =? 0)%Z && (wTime r0 <? now + maxLockAge)%Z).
    exists (setLock (if p i r then 0%Z else wLock r) (if p i r then 0%Z else wTime r) r). split; [exact (In_lock I)|]. split; [reflexivity|]. unfold p. cbn [setLock wLock wTime]. unfold maxLockAge. split.
    + intros L. replace (wTime r =? 0)%Z with false by (symmetry; apply Z.eqb_neq; lia). replace (wTime r <? now + 3600)%Z with true by (symmetry; apply Z.ltb_lt; lia). split; reflexivity.
    + intros T0. replace (wTime r =? 0)%Z with true by (rewrite T0; reflexivity). cbn [negb andb]. apply setLock_id.
  - intros r' I. apply In_lock_inv in I as (s & I & E & _). eauto.
Qed.
Example C57_ex : exists r, In (1, r) (wTok exLocked) /\ wLock r = 5%Z /\ (0 < wTime r < 20000 - 3600)%Z.
Proof. eexists. split; [vm_compute; left; reflexivity|]. split; [reflexivity|]. cbn [wTime]. lia. Qed.

(* ---------------- C58 ---------------- *)
(* nothing is found in a reopened store, whatever was stored *)
Theorem C58_lost : forall now s, fst (getAuthToken (reopen now s)) = ([], 0%Z) /\ fst (getVerifyKeys (reopen now s)) = [].
Proof.
  intros now s. unfold getAuthToken, getVerifyKeys, reopen, readCache. cbn [stCache stDB]. destruct (mget cacheKey _); cbn [scan Nat.eqb length]; split; reflexivity.
Qed.
Theorem C58_refuted : exists tok tries keys s now, fst (getAuthToken (reopen now (setVerifyKeys keys (setAuthToken tok tries s)))) <> (tok, tries) /\
  fst (getVerifyKeys (reopen now (setVerifyKeys keys (setAuthToken tok tries s)))) <> keys.
Proof. exists (str "auth"), 2%Z, [repeat 1 32], (mkStore exStore None), 100%Z. split; vm_compute; discriminate. Qed.
(* without a restart the values last stored are found *)
Theorem C58_running_partial : forall tok tries keys s,
  fst (getAuthToken (setVerifyKeys keys (setAuthToken tok tries s))) = (tok, tries) /\ fst (getVerifyKeys (setAuthToken tok tries (setVerifyKeys keys s))) = keys.
Proof. intros. split; reflexivity. Qed.
Lemma parseOcts_map ks : forall f, Forall (fun k => lenN k = 32) ks -> (length ks <= f)%nat -> parseOcts f (concat (map (tlv 4) ks)) = Ok ks.
Proof.
  induction ks as [|k ks IH]; intros f F L; [destruct f; reflexivity|]. inversion_clear F. destruct f as [|f]; cbn [length] in L; [lia|]. cbn [map concat]. destruct (tlv 4 k ++ concat (map (tlv 4) ks)) as [|c l] eqn:E; [unfold tlv in E; discriminate|].
  cbn [parseOcts]. rewrite <- E. rewrite parseTLV_tlv; [|reflexivity|lia]. cbn [rbind]. rewrite IH; [reflexivity|assumption|lia].
Qed.
Lemma lenN_octs ks : Forall (fun k => lenN k = 32) ks -> lenN (concat (map (tlv 4) ks)) = 34 * lenN ks.
Proof.
  induction ks as [|k ks IH]; intros F; [reflexivity|]. inversion_clear F. cbn [map concat]. rewrite lenN_app, IH by assumption. unfold tlv. rewrite lenN_cons, lenN_app. rewrite H. change (derLen 32) with [32]. rewrite !lenN_cons, lenN_nil. lia.
Qed.
Lemma wfb_octs ks : Forall (fun k => lenN k = 32 /\ wfb k) ks -> wfb (concat (map (tlv 4) ks)).
Proof. induction ks as [|k ks IH]; intros F; [constructor|]. inversion_clear F as [|? ? [L W] F']. cbn [map concat]. apply Forall_app. split; [apply wfb_tlv; [lia|lia|exact W]|exact (IH F')]. Qed.
(* what writeCache stores can be read: the defect is in the query *)
Theorem C58_codec_partial : forall c, wfb (kTok c) -> lenN (kTok c) < 2 ^ 28 -> (- 2 ^ 63 <= kTries c < 2 ^ 63)%Z -> Forall (fun k => lenN k = 32 /\ wfb k) (kKeys c) -> lenN (kKeys c) < 2 ^ 20 ->
  cacheUnmarshal (cacheMarshal c) = Ok c.
Proof.
  intros [tok tries keys] W L T K LK. cbn [kTok kTries kKeys] in *. unfold cacheUnmarshal, cacheMarshal. cbn [kTok kTries kKeys].
  assert (K1 : Forall (fun k => lenN k = 32) keys) by (eapply Forall_impl; [|exact K]; cbn; tauto).
  pose proof (lenN_octs keys K1) as LO. pose proof (wfb_octs keys K) as WO. destruct (intBytes_len tries T) as [LI0 LI].
  set (octs := concat (map (tlv 4) keys)) in *. assert (LO2 : lenN octs < 34 * 2 ^ 20) by (unfold octs; rewrite (lenN_octs keys K1); apply N.mul_lt_mono_pos_l; [reflexivity|exact LK]). set (body := tlv 4 tok ++ tlv 2 (intBytes tries) ++ tlv 48 octs).
  assert (LB : lenN body < 2 ^ 31 - 6).
  { unfold body. rewrite !lenN_app. pose proof (lenN_tlv 4 tok ltac:(lia)). pose proof (lenN_tlv 2 (intBytes tries) ltac:(lia)). pose proof (lenN_tlv 48 octs ltac:(lia)). lia. }
  assert (WB : wfb body). { unfold body. repeat (apply Forall_app; split); apply wfb_tlv; try lia; try assumption. apply wfb_be. }
  rewrite b64dec_enc by (apply wfb_tlv; [lia|lia|exact WB]). cbn [opt rbind]. rewrite <- (app_nil_r (tlv 48 body)). rewrite parseTLV_tlv; [|reflexivity|lia]. cbn [rbind]. unfold body.
  rewrite parseTLV_tlv; [|reflexivity|lia]. cbn [rbind]. rewrite parseTLV_tlv; [|reflexivity|lia]. cbn [rbind]. rewrite parseInt64_bytes by exact T. cbn [rbind]. rewrite <- (app_nil_r (tlv 48 octs)). rewrite parseTLV_tlv; [|reflexivity|lia]. cbn [rbind]. unfold octs.
  rewrite parseOcts_map; [|exact K1|]. 2:{ clear - K1. induction K1 as [|k ks H _ IH]; [reflexivity|]. cbn [map concat length]. rewrite app_length. unfold tlv at 1. cbn [app length]. lia. }
  cbn [rbind]. do 2 f_equal. clear - K1. induction K1 as [|k ks H _ IH]; [reflexivity|]. cbn [map]. rewrite IH, arr_full by exact H. reflexivity.
Qed.
Example C58_ex : wfb (str "auth") /\ Forall (fun k => lenN k = 32 /\ wfb k) [repeat 1 32; repeat 2 32].
Proof. split; [repeat (constructor; [reflexivity|]); constructor|]. repeat (constructor; [split; [reflexivity|apply wfb_repeat; lia]|]). constructor. Qed.

(* ---------------- C59 ---------------- *)
(* calls of GetAndLockToken, one list of lock IDs for each; stops at the first error *)
Fixpoint drain (usage : bytes) (owner : option bytes) (now : Z) (calls : list (list Z)) (db : wdb) : list tokenEntry * option String.string * wdb :=
  match calls with
  | [] => ([], None, db)
  | ids :: calls' =>
    match getAndLockToken usage owner ids now db with
    | (Ok t, db') => let '(l, e, d) := drain usage owner now calls' db' in (t :: l, e, d)
    | (Err e, db') => ([], Some e, db')
    | (Panic, db') => ([], Some "panic"%string, db')
    end
  end.
(* the first lock ID of each call is positive, not in use and not that of another call *)
Definition distinctIds (calls : list (list Z)) (db : wdb) : Prop :=
  Forall (fun ids => exists id ids', ids = id :: ids' /\ (0 < id)%Z /\ freshId id db) calls /\ NoDup (map (hd 0%Z) calls).
(* the token is for this usage, belongs to somebody else and, if asked for, to [owner] *)
Definition fits (usage : bytes) (owner : option bytes) (t : tokenEntry) : Prop :=
  tUsage t = usage /\ tPriv t = None /\ match owner with Some k => tPub t = Some k | None => True end.
Lemma take_one usage owner id ids now db : good db -> (0 < id)%Z -> freshId id db ->
  match first (usable usage owner) (wTok db) with
  | None => getAndLockToken usage owner (id :: ids) now db = (Err "client: no token in wallet", db)
  | Some r => exists t, rowOf db r t /\ getAndLockToken usage owner (id :: ids) now db = (Ok (norm t), wstep db (WLock (tHash t) id now)) /\ wHash r = hexenc (tHash t) /\ wfb (tHash t) /\ lockedBy (tHash t) id (wstep db (WLock (tHash t) id now))
  end.
Proof.
  intros G P F. unfold getAndLockToken. cbn [getAndLockN]. unfold getAndLock1. destruct (first _ _) as [r|] eqn:FI; [|reflexivity].
  apply first_some in FI as (i & I & U). destruct (gd_rows _ G _ _ I) as [t R]. exists t. destruct (good_hash _ _ _ G I) as (h & W & E & HD).
  assert (h = tHash t). { destruct R as (V & g & st & EG & RR & _). destruct (decode_encode t g st 0 0 V EG) as (HG & _). apply hexenc_inj; [exact W|apply V|]. rewrite <- E, <- HG, RR. reflexivity. } subst h.
  split; [exact R|]. rewrite HD. cbn [wstep]. pose proof U as U0. unfold usable in U0. rewrite !andb_true_iff in U0. destruct U0 as ((((U0 & _) & _) & _) & _).
  assert (LT : lockToken (tHash t) id now db = (id, snd (lockToken (tHash t) id now db))).
  { unfold lockToken. destruct (thas _ _) eqn:T; [reflexivity|]. pose proof (thas_false _ _ T _ I) as Q. cbn [fst snd] in Q. unfold lockable in Q. rewrite E, beq_refl, U0 in Q. discriminate. }
  pose proof (lock_ok _ _ _ _ _ G P F LT) as LB. rewrite LT. cbn [snd]. replace (id <=? 0)%Z with false by (symmetry; apply Z.leb_gt; exact P).
  assert (Gd : good (snd (lockToken (tHash t) id now db))) by (apply good_lockToken, G).
  assert (GT : getToken (tHash t) id (snd (lockToken (tHash t) id now db)) = Ok (norm t)).
  { destruct LB as (j & s & J & ES & LS). destruct (gd_rows _ Gd _ _ J) as [t' R'].
    pose proof (get_lock db (WLock (tHash t) id now) (tHash t) G W Logic.I) as Q. cbn [wstep] in Q.
    rewrite (getToken_row _ _ _ _ _ (-1) Gd J R' W ES) in Q. rewrite (getToken_row _ _ _ _ _ (-1) G I R W E) in Q. cbn [Z.leb Z.compare andb] in Q.
    rewrite (getToken_row _ _ _ _ _ id Gd J R' W ES). rewrite LS, Z.eqb_refl, andb_false_r. exact Q. }
  rewrite GT. cbn [isErr]. auto.
Qed.
Lemma count_lock db h id now usage owner r i : good db -> wfb h -> (0 < id)%Z -> freshId id db -> In (i, r) (wTok db) -> wHash r = hexenc h -> usable usage owner r = true ->
  count (usable usage owner) (wTok db) = N.succ (count (usable usage owner) (wTok (wstep db (WLock h id now)))).
Proof.
  intros G W P F I E U. cbn [wstep]. assert (UL : wLock r = 0%Z). { unfold usable in U. rewrite !andb_true_iff in U. destruct U as ((((U & _) & _) & _) & _). apply Z.eqb_eq, U. }
  unfold lockToken. destruct (thas _ _) eqn:T.
  2:{ pose proof (thas_false _ _ T _ I) as Q. cbn [fst snd] in Q. unfold lockable in Q. rewrite E, beq_refl, UL in Q. discriminate. }
  clear T. cbn [snd wTok]. unfold count. destruct (in_split _ _ I) as (l1 & l2 & EQ). pose proof (gd_uniq _ G) as ND. unfold freshId in F. rewrite EQ in *.
  assert (OFF : forall j s, In (j, s) (l1 ++ l2) -> lockable (hexenc h) id j s = false).
  { intros j s J. assert (J' : In (j, s) (l1 ++ (i, r) :: l2)) by (apply in_app_iff; apply in_app_iff in J as [J|J]; [left|right; right]; exact J).
    unfold lockable. replace (wLock s =? id)%Z with false by (symmetry; apply Z.eqb_neq; apply (F _ _ J')). rewrite orb_false_r. apply andb_false_iff. left. apply beq_neq. intros Q.
    rewrite map_app in ND. cbn [map snd] in ND. apply NoDup_remove_2 in ND. apply ND. rewrite <- map_app. apply in_map_iff. exists (j, s). split; [cbn [snd]; congruence|exact J]. }
  assert (UPD : forall l, (forall j s, In (j, s) l -> lockable (hexenc h) id j s = false) -> tupd (lockable (hexenc h) id) (setLock id now) l = l).
  { induction l as [|[j s] l IH]; intros H; [reflexivity|]. unfold tupd in *. cbn [map fst snd]. rewrite (H j s (or_introl eq_refl)). f_equal. apply IH. intros j' s' Q. apply H. right. exact Q. }
  assert (TU : tupd (lockable (hexenc h) id) (setLock id now) (l1 ++ (i, r) :: l2) = l1 ++ (i, setLock id now r) :: l2).
  { unfold tupd. rewrite map_app. cbn [map fst snd]. fold (tupd (lockable (hexenc h) id) (setLock id now) l1). fold (tupd (lockable (hexenc h) id) (setLock id now) l2).
    rewrite !UPD by (intros j s J; apply OFF, in_app_iff; auto). replace (lockable (hexenc h) id i r) with true; [reflexivity|]. unfold lockable. rewrite E, beq_refl, UL. reflexivity. }
  rewrite TU, !filter_app, !lenN_app. cbn [filter snd]. rewrite U. replace (usable usage owner (setLock id now r)) with false; [rewrite lenN_cons; lia|].
  unfold usable. cbn [setLock wLock]. replace (id =? 0)%Z with false by (symmetry; apply Z.eqb_neq; lia). reflexivity.
Qed.
Lemma count_first p t : first p t = None -> count p t = 0.
Proof.
  intros F. unfold count. replace (filter _ t) with (@nil (N * wRow)); [reflexivity|]. symmetry. pose proof (first_none _ _ F) as Q. clear F. induction t as [|[i r] t IH]; [reflexivity|]. cbn [filter snd]. rewrite (Q i r (or_introl eq_refl)). apply IH. intros j s J. apply (Q j s). right. exact J.
Qed.
Lemma fits_row db i r t usage owner : In (i, r) (wTok db) -> rowOf db r t -> usable usage owner r = true -> match owner with Some k => lenN k = 32 /\ wfb k | None => True end -> fits usage owner (norm t).
Proof.
  intros I (V & g & st & E & R & _) U OW. destruct (decode_encode t g st 0 0 V E) as (_ & _ & _ & _ & EU & ES & EP & _). unfold usable in U. rewrite !andb_true_iff in U. destruct U as ((((_ & _) & U3) & U4) & U5).
  assert (Q1 : wUsage r = tUsage t) by (rewrite R; exact EU). assert (Q2 : wSelf r = isSome (tPriv t)) by (rewrite R; exact ES). assert (Q3 : wPub r = b64enc (orNil (tPub t))) by (rewrite R; exact EP).
  unfold fits, norm. cbn [tUsage tPriv tPub]. split; [apply beq_spec in U5; congruence|]. split; [rewrite Q2 in U3; destruct (tPriv t); [discriminate|reflexivity]|].
  destruct owner as [k|]; [|exact Logic.I]. apply beq_spec in U4. rewrite Q3 in U4. destruct V as (_ & _ & NP & AP & _). destruct (tPub t) as [pub|]; [|congruence]. cbn [orNil isArr] in *. f_equal.
  pose proof (b64dec_enc pub (proj2 AP)). pose proof (b64dec_enc k (proj2 OW)). congruence.
Qed.
Lemma freshId_lock id id' h now db : id <> id' -> freshId id db -> freshId id (wstep db (WLock h id' now)).
Proof.
  intros NE F i r I. cbn [wstep] in I. unfold lockToken in I. destruct (thas _ _); [|exact (F _ _ I)]. cbn [snd wTok] in I. apply In_lock_inv in I as (s & I & _ & E). destruct (lockable _ _ _ _); rewrite E; [cbn [setLock wLock]; congruence|exact (F _ _ I)].
Qed.
(* Asking often enough returns as many different fitting tokens as the balance says, then "no token". *)
Theorem C59_balance : forall usage owner now calls db, good db -> match owner with Some k => lenN k = 32 /\ wfb k | None => True end -> distinctIds calls db ->
  getBalance usage owner db < lenN calls ->
  exists l d, drain usage owner now calls db = (l, Some "client: no token in wallet"%string, d) /\ lenN l = getBalance usage owner db /\ NoDup (map tHash l) /\ Forall (fits usage owner) l.
Proof.
  intros usage owner now calls db G OW D L.
  enough (H : exists l d, drain usage owner now calls db = (l, Some "client: no token in wallet"%string, d) /\ lenN l = getBalance usage owner db /\ NoDup (map tHash l) /\ Forall (fits usage owner) l /\
      Forall (fun t => wfb (tHash t) /\ exists i r, In (i, r) (wTok db) /\ wHash r = hexenc (tHash t) /\ wLock r = 0%Z) l) by (destruct H as (l & d & H1 & H2 & H3 & H4 & _); exists l, d; auto).
  unfold getBalance in *. revert db G D L. induction calls as [|ids calls IH]; intros db G [DF DN] L; [rewrite lenN_nil in L; lia|]. cbn [drain]. inversion_clear DF as [|? ? D1 DF']. cbn [map] in DN. inversion_clear DN as [|? ? N1 N2].
  destruct D1 as (id & ids' & -> & P & F). cbn [hd] in N1. pose proof (take_one usage owner id ids' now db G P F) as T1. destruct (first (usable usage owner) (wTok db)) as [r|] eqn:FI.
  - destruct T1 as (t & R & -> & EH & W & LB). apply first_some in FI as (i & I & U). pose proof (count_lock db (tHash t) id now usage owner r i G W P F I EH U) as CL.
    assert (Gd : good (wstep db (WLock (tHash t) id now))) by (apply good_step; [exact W|exact G]).
    destruct (IH (wstep db (WLock (tHash t) id now)) Gd) as (l & d & E1 & E2 & E3 & E4 & E5).
    { split; [|exact N2]. rewrite Forall_forall in *. intros ids I'. destruct (DF' ids I') as (id2 & ids2 & -> & P2 & F2). exists id2, ids2. split; [reflexivity|]. split; [exact P2|]. apply freshId_lock; [|exact F2].
      intros ->. apply N1. apply in_map_iff. exists (id :: ids2). auto. }
    { rewrite CL, lenN_cons in L. lia. }
    rewrite E1. exists (norm t :: l), d. split; [reflexivity|]. split; [rewrite lenN_cons, E2, CL; lia|]. split; [|split].
    + cbn [map norm tHash]. constructor; [|exact E3]. intros Q. apply in_map_iff in Q as (t2 & Q1 & Q2). rewrite Forall_forall in E5. destruct (E5 _ Q2) as (_ & j & s & J & ES & LS). destruct LB as (j' & s' & J' & ES' & LS').
      assert (X : (j, s) = (j', s')) by (apply (row_unique _ _ _ _ _ Gd); auto; congruence). assert (wLock s = id) by congruence. lia.
    + constructor; [|exact E4]. exact (fits_row db i r t usage owner I R U OW).
    + constructor; [split; [exact W|]; exists i, r; cbn [norm tHash]; split; [exact I|]; split; [exact EH|]; unfold usable in U; rewrite !andb_true_iff in U; destruct U as ((((U & _) & _) & _) & _); apply Z.eqb_eq, U|].
      eapply Forall_impl; [|exact E5]. cbn beta. intros t2 (W2 & j & s & J & ES & LS). split; [exact W2|]. cbn [wstep] in J. unfold lockToken in J. destruct (thas _ _); cbn [snd wTok] in J; [|exists j, s; auto].
      apply In_lock_inv in J as (s0 & J & RS & X). destruct (lockable _ _ _ _); [rewrite X in LS; cbn [setLock wLock] in LS; lia|]. exists j, s0. subst s. auto.
  - rewrite T1. exists [], db. split; [reflexivity|]. rewrite (count_first _ _ FI). repeat split; constructor.
Qed.
Example C59_ex : distinctIds [[11]; [12]; [13]]%Z exStore /\ getBalance (str "Message") None exStore = 2.
Proof.
  split; [|vm_compute; reflexivity]. split.
  - assert (F : forall id, (0 < id)%Z -> freshId id exStore) by (intros id P i r I; vm_compute in I; repeat (destruct I as [I|I]; [injection I as _ <-; cbn [wLock]; lia|]); elim I).
    repeat (constructor; [eexists; eexists; split; [reflexivity|split; [lia|apply F; lia]]|]). constructor.
  - repeat (constructor; [cbn; intros Q; repeat (destruct Q as [Q|Q]; [lia|]); exact Q|]). constructor.
Qed.
(* GetBalanceOwn is positive exactly if FindToken finds a token, which is then one of the user's own *)
Theorem C59_own : forall usage db, good db ->
  (0 < getBalanceOwn usage db -> exists t, findToken usage db = Ok t /\ tUsage t = usage /\ tPriv t <> None) /\
  (getBalanceOwn usage db = 0 -> findToken usage db = Err "client: no token in wallet").
Proof.
  intros usage db G. unfold getBalanceOwn, findToken. destruct (first (selfUsable usage) (wTok db)) as [r|] eqn:FI.
  - apply first_some in FI as (i & I & U). split.
    + intros _. destruct (good_hash _ _ _ G I) as (h & W & E & HD). rewrite HD. destruct (gd_rows _ G _ _ I) as [t R]. rewrite (getToken_row db i r t h (-1) G I R W E). cbn [Z.leb Z.compare andb]. exists (norm t). split; [reflexivity|].
      destruct R as (V & g & st & EG & RR & _). destruct (decode_encode t g st 0 0 V EG) as (_ & _ & _ & _ & EU & ES & _ & EX & _). unfold selfUsable in U. rewrite !andb_true_iff in U. destruct U as (((_ & _) & U3) & U4).
      assert (Q1 : wUsage r = tUsage t) by (rewrite RR; exact EU). assert (Q2 : wSelf r = isSome (tPriv t)) by (rewrite RR; exact ES).
      cbn [norm tUsage tPriv]. apply beq_spec in U4. split; [congruence|]. rewrite Q2 in U3. destruct (tPriv t); [discriminate|discriminate].
    + intros C. unfold count in C. exfalso. assert (X : In (i, r) (filter (fun e => selfUsable usage (snd e)) (wTok db))) by (apply filter_In; auto). destruct (filter _ _); [elim X|rewrite lenN_cons in C; lia].
  - split; [|reflexivity]. rewrite (count_first _ _ FI). lia.
Qed.
Example C59_own_ex : getBalanceOwn (str "Message") exStore = 1.
Proof. vm_compute. reflexivity. Qed.

Print Assumptions C87_read_back.
Print Assumptions C87_same_partial.
Print Assumptions C87_refuted.
Print Assumptions C56_exclusive_partial.
Print Assumptions C56_ids_refuted.
Print Assumptions C56_precedence_refuted.
Print Assumptions C56_refuted.
Print Assumptions C57_refuted.
Print Assumptions C57_all_released.
Print Assumptions C57_stale_partial.
Print Assumptions C58_lost.
Print Assumptions C58_refuted.
Print Assumptions C58_running_partial.
Print Assumptions C58_codec_partial.
Print Assumptions C59_balance.
Print Assumptions C59_own.
