(* Invariants of the wallet store. *)
From Verif Require Import Base Base64Model Base64Proofs Asn1Model Asn1Proofs Maps SqlModel SqlProofs MsgDBProofs MsgDBSteps WalletModel.
From Coq Require Import Sorting.Sorted.
Local Open Scope N_scope.

(* ---------------- what is read back ---------------- *)
Definition normOpt (o : option bytes) : option bytes := oneOf (orNil o).
Definition kept (t : tokenEntry) : bool := isSome (tPacket t) || isSome (tBlind t) || isSome (tNewPriv t) || isSome (tParams t).
(* the token that is read back after [t] was stored *)
Definition norm (t : tokenEntry) : tokenEntry :=
  mkTE (tHash t) (tToken t) (normOpt (tParams t)) (tPub t) (tPriv t) (tRenew t) (tReissue t) (tUsage t) (tExpire t)
    (normOpt (tPacket t)) (normOpt (tBlind t)) (if kept t then tNewPub t else None) (tNewPriv t).
Definition isArr (n : N) (o : option bytes) : Prop := match o with Some b => lenN b = n /\ wfb b | None => True end.
Definition small (o : option bytes) : Prop := match o with Some b => lenN b < 2 ^ 28 /\ wfb b | None => True end.
(* a TokenEntry as Go can hold it: byte arrays of the right size, an owner, slices below 256 MB *)
Definition valid (t : tokenEntry) : Prop :=
  wfb (tHash t) /\ wfb (tToken t) /\ tPub t <> None /\ isArr 32 (tPub t) /\ isArr 64 (tPriv t) /\ isArr 32 (tNewPub t) /\ isArr 64 (tNewPriv t) /\
  small (tParams t) /\ small (tPacket t) /\ small (tBlind t).
Lemma arr_full n b : lenN b = n -> arr n b = b.
Proof. intros L. unfold arr. apply takeN_app. exact L. Qed.
Lemma optOf_arr n o : 0 < n -> isArr n o -> optOf n (orNil o) = o.
Proof.
  intros P H. destruct o as [b|]; cbn [orNil optOf isArr] in *; unfold optOf.
  - destruct H as [-> _]. rewrite N.eqb_refl. reflexivity.
  - rewrite lenN_nil. destruct (N.eqb_spec 0 n); [lia|reflexivity].
Qed.
Lemma small_orNil o : small o -> lenN (orNil o) < 2 ^ 28 /\ wfb (orNil o).
Proof. destruct o as [b|]; cbn [small orNil]; [auto|]. intros _. split; [reflexivity|constructor]. Qed.
Lemma arr_orNil n o : n <= 64 -> isArr n o -> lenN (orNil o) < 2 ^ 28 /\ wfb (orNil o).
Proof. intros L. destruct o as [b|]; cbn [isArr orNil]; [intros [-> W]; split; [lia|exact W]|]. intros _. split; [reflexivity|constructor]. Qed.
Lemma lenN_derLen n : n < 2 ^ 31 -> lenN (derLen n) <= 5.
Proof.
  intros H. unfold derLen. destruct (n <? 128); [rewrite lenN_cons, lenN_nil; lia|]. destruct (nbytesF_spec n H) as (A & _). rewrite lenN_cons, lenN_be. lia.
Qed.
Lemma lenN_tlv t b : lenN b < 2 ^ 31 -> lenN (tlv t b) <= 6 + lenN b.
Proof. intros H. unfold tlv. rewrite lenN_cons, lenN_app. pose proof (lenN_derLen _ H). lia. Qed.
Lemma wfb_derLen n : n < 2 ^ 31 -> wfb (derLen n).
Proof.
  intros H. unfold derLen. destruct (N.ltb_spec n 128); [constructor; [lia|constructor]|]. destruct (nbytesF_spec n H) as (A & _).
  constructor; [lia|]. apply wfb_be.
Qed.
Lemma wfb_tlv t b : t < 256 -> lenN b < 2 ^ 31 -> wfb b -> wfb (tlv t b).
Proof. intros T L W. unfold tlv. constructor; [exact T|]. apply Forall_app. split; [apply wfb_derLen; exact L|exact W]. Qed.
Lemma setLock_id r : setLock (wLock r) (wTime r) r = r.
Proof. destruct r; reflexivity. Qed.
Lemma decode_encode t g st time lock : valid t -> encodeToken t = Ok (g, st) ->
  wHash g = hexenc (tHash t) /\ decodeToken (setLock lock time g) st = Ok (norm t) /\ (wParams g || wState g = true -> st <> []) /\ (wParams g || wState g = false -> st = []) /\
  wUsage g = tUsage t /\ wSelf g = isSome (tPriv t) /\ wPub g = b64enc (orNil (tPub t)) /\ wExpire g = tExpire t /\ wLock g = 0%Z /\ wTime g = 0%Z.
Proof.
  intros (W1 & W2 & NP & AP & AK & AN & AQ & S1 & S2 & S3) E. unfold encodeToken in E. destruct (tPub t) as [pub|] eqn:PB; [|congruence]. cbn [isArr] in AP. destruct AP as [LP WP].
  set (hp := isSome (tParams t)) in *. set (hs := isSome (tPacket t) || isSome (tBlind t) || isSome (tNewPriv t)) in *.
  destruct (small_orNil _ S1) as [L1 V1]. destruct (small_orNil _ S2) as [L2 V2]. destruct (small_orNil _ S3) as [L3 V3].
  destruct (arr_orNil 32 _ ltac:(lia) AN) as [L4 V4]. destruct (arr_orNil 64 _ ltac:(lia) AQ) as [L5 V5].
  set (fields := [DOct (orNil (tParams t)); DOct (orNil (tPacket t)); DOct (orNil (tBlind t)); DOct (orNil (tNewPub t)); DOct (orNil (tNewPriv t))]) in *.
  assert (EN : encFields fields = Some (tlv 4 (orNil (tParams t)) ++ tlv 4 (orNil (tPacket t)) ++ tlv 4 (orNil (tBlind t)) ++ tlv 4 (orNil (tNewPub t)) ++ tlv 4 (orNil (tNewPriv t)) ++ [])) by reflexivity.
  set (body := tlv 4 (orNil (tParams t)) ++ _) in EN.
  assert (LB : lenN body < 2 ^ 31 - 6).
  { unfold body. rewrite !lenN_app, lenN_nil. pose proof (lenN_tlv 4 (orNil (tParams t)) ltac:(lia)). pose proof (lenN_tlv 4 (orNil (tPacket t)) ltac:(lia)). pose proof (lenN_tlv 4 (orNil (tBlind t)) ltac:(lia)).
    pose proof (lenN_tlv 4 (orNil (tNewPub t)) ltac:(lia)). pose proof (lenN_tlv 4 (orNil (tNewPriv t)) ltac:(lia)). lia. }
  assert (WB : wfb body) by (unfold body; repeat (apply Forall_app; split); try (apply wfb_tlv; [lia|lia|assumption]); constructor).
  assert (DM : derMarshal fields = Some (tlv 48 body)) by (unfold derMarshal; rewrite EN; reflexivity). rewrite DM in E.
  assert (WM : wfb (tlv 48 body)) by (apply wfb_tlv; [lia|lia|exact WB]).
  assert (UM : derUnmarshal [TOct; TOct; TOct; TOct; TOct] (tlv 48 body) = Ok fields).
  { rewrite <- (app_nil_r (tlv 48 body)). apply derUnmarshal_marshal; [|exact DM|pose proof (lenN_tlv 48 body ltac:(lia)); lia]. unfold fields. repeat (constructor; [cbn [dvOk]; lia|]). constructor. }
  set (st0 := if hs || hp then b64enc (tlv 48 body) else []).
  assert (g = mkW 0 0 (hexenc (tHash t)) (b64enc (tToken t)) (b64enc pub) (match tPriv t with Some k => b64enc k | None => [] end) (tRenew t) (tReissue t) (tUsage t) (tExpire t) (isSome (tPriv t)) hp hs /\ st = st0) as [-> ->].
  { unfold st0. destruct (hs || hp); cbn [rbind] in E; split; congruence. }
  clear E. split; [reflexivity|]. assert (NE : b64enc (tlv 48 body) <> []) by (unfold tlv; cbn [b64enc app]; destruct (derLen (lenN body) ++ body) as [|? [|? ?]]; discriminate).
  split; [|split; [|split]].
  - unfold decodeToken. cbn [setLock wHash wPub wToken wSelf wPriv wState wParams wRenew wReissue wUsage wExpire]. rewrite hexdec_enc by exact W1. cbn [opt rbind].
    rewrite b64dec_enc by exact WP. cbn [opt rbind]. rewrite b64dec_enc by exact W2. cbn [opt rbind].
    assert (PR : (if isSome (tPriv t) then do k <- opt (b64dec match tPriv t with Some k => b64enc k | None => [] end) "illegal base64 data"; Ok (Some (arr 64 k)) else Ok None) = Ok (tPriv t)).
    { destruct (tPriv t) as [k|]; cbn [isSome]; [|reflexivity]. cbn [isArr] in AK. destruct AK as [LK WK]. rewrite b64dec_enc by exact WK. cbn [opt rbind]. rewrite (arr_full 64 k LK). reflexivity. }
    rewrite PR. cbn [rbind]. unfold st0, norm, normOpt, kept. fold hs hp.
    destruct (hs || hp) eqn:HH.
    + rewrite b64dec_enc by exact WM. cbn [opt rbind]. rewrite UM. cbn [rbind]. unfold fields. rewrite PB, (arr_full 32 pub LP), (optOf_arr 32 _ ltac:(lia) AN), (optOf_arr 64 _ ltac:(lia) AQ). reflexivity.
    + cbn [rbind]. apply orb_false_iff in HH as [H1 H2]. unfold hs in H1. unfold hp in H2. apply orb_false_iff in H1 as [H1 H3]. apply orb_false_iff in H1 as [H0 H1].
      destruct (tParams t); [discriminate|]. destruct (tPacket t); [discriminate|]. destruct (tBlind t); [discriminate|]. destruct (tNewPriv t); [discriminate|].
      rewrite PB, (arr_full 32 pub LP). reflexivity.
  - cbn [wParams wState]. intros H. unfold st0. rewrite orb_comm in H. rewrite H. exact NE.
  - cbn [wParams wState]. intros H. unfold st0. rewrite orb_comm in H. rewrite H. reflexivity.
  - repeat split.
Qed.
Lemma encode_ok t : valid t -> exists g st, encodeToken t = Ok (g, st).
Proof.
  intros (_ & _ & NP & _). unfold encodeToken. destruct (tPub t); [|congruence]. unfold derMarshal. cbn [encFields encField]. destruct (_ || isSome (tParams t)); cbn [rbind]; eauto.
Qed.

(* ---------------- the invariant ---------------- *)
(* the row of a token: its contents are those of [t], its state is in the other table *)
Definition rowOf (db : wdb) (r : wRow) (t : tokenEntry) : Prop :=
  valid t /\ exists g st, encodeToken t = Ok (g, st) /\ r = setLock (wLock r) (wTime r) g /\ (wParams r || wState r = true -> mget (wHash r) (wSt db) = Some st).
Record good (db : wdb) : Prop := mkGood {
  gd_ids : idsOk (wTok db);
  gd_uniq : NoDup (map (fun e => wHash (snd e)) (wTok db));
  gd_rows : forall i r, In (i, r) (wTok db) -> exists t, rowOf db r t }.
Lemma good_empty : good emptyW.
Proof. split; [apply idsOk_nil|constructor|intros i r []]. Qed.
Lemma row_unique db i r j s : good db -> In (i, r) (wTok db) -> In (j, s) (wTok db) -> wHash r = wHash s -> (i, r) = (j, s).
Proof. intros G I J E. exact (NoDup_key (fun e => wHash (snd e)) (wTok db) (i, r) (j, s) (gd_uniq _ G) I J E). Qed.
Lemma get_row db i r : good db -> In (i, r) (wTok db) -> tmin (sameHash (wHash r)) (wTok db) = Some (i, r).
Proof.
  intros G I. destruct (tmin _ _) as [[j s]|] eqn:T.
  - apply tmin_some in T as [J B]. cbn [fst snd] in B. unfold sameHash in B. apply beq_spec in B. f_equal. symmetry. apply (row_unique db); auto.
  - apply tmin_none with (s := (i, r)) in T; [|exact I]. cbn [fst snd] in T. unfold sameHash in T. rewrite beq_refl in T. discriminate.
Qed.
Lemma hexenc_inj a b : wfb a -> wfb b -> hexenc a = hexenc b -> a = b.
Proof. intros A B E. pose proof (hexdec_enc a A). pose proof (hexdec_enc b B). congruence. Qed.
(* reading the token of a row *)
Lemma getToken_row db i r t h l : good db -> In (i, r) (wTok db) -> rowOf db r t -> wfb h -> wHash r = hexenc h ->
  getToken h l db = if (0 <=? l)%Z && negb (wLock r =? 0)%Z && negb (wLock r =? l)%Z then Err errLocked else Ok (norm t).
Proof.
  intros G I (V & g & st & E & R & S) W H. unfold getToken. rewrite <- H, (get_row _ _ _ G I). destruct (_ && _ && _); [reflexivity|].
  destruct (decode_encode t g st (wTime r) (wLock r) V E) as (_ & D & _ & ST & _). destruct (wParams r || wState r) eqn:PS.
  - rewrite (S eq_refl). cbn [opt rbind]. rewrite R. cbn [setLock wLock wTime]. exact D.
  - cbn [rbind]. rewrite R in PS. cbn [setLock wParams wState] in PS. specialize (ST PS). subst st. rewrite R. cbn [setLock wLock wTime]. exact D.
Qed.
Lemma getToken_none db h l : (forall i r, In (i, r) (wTok db) -> wHash r <> hexenc h) -> getToken h l db = Err "sql: no rows in result set".
Proof.
  intros N0. unfold getToken. destruct (tmin _ _) as [[i r]|] eqn:T; [|reflexivity]. apply tmin_some in T as [I B]. apply beq_spec in B. elim (N0 _ _ I). exact B.
Qed.
Lemma row_or_none db h : (exists i r, In (i, r) (wTok db) /\ wHash r = hexenc h) \/ (forall i r, In (i, r) (wTok db) -> wHash r <> hexenc h).
Proof.
  destruct (tmin (sameHash (hexenc h)) (wTok db)) as [[i r]|] eqn:T.
  - left. apply tmin_some in T as [I B]. apply beq_spec in B. eauto.
  - right. intros i r I E. apply tmin_none with (s := (i, r)) in T; [|exact I]. cbn [snd] in T. unfold sameHash in T. rewrite E, beq_refl in T. discriminate.
Qed.

(* ---------------- operations ---------------- *)
Inductive wop := WSet (t : tokenEntry) | WDel (h : bytes) | WLock (h : bytes) (id now : Z) | WUnlock (h : bytes) | WClean (force : bool) (now : Z) | WExpire (now : Z) | WCache (data : bytes).
Definition wstep (db : wdb) (o : wop) : wdb :=
  match o with
  | WSet t => match setToken t db with Ok db' => db' | _ => db end
  | WDel h => delToken h db
  | WLock h id now => snd (lockToken h id now db)
  | WUnlock h => unlockToken h db
  | WClean f now => cleanLocks f now db
  | WExpire now => snd (expireUnusable now db)
  | WCache d => mkWdb (wTok db) (mset cacheKey d (wSt db))
  end.
Definition wrun (ops : list wop) (db : wdb) : wdb := fold_left wstep ops db.
Definition okOp (o : wop) : Prop := match o with WSet t => valid t | WDel h | WUnlock h => wfb h | WLock h id _ => wfb h | _ => True end.

Lemma hexenc_cacheKey h : hexenc h <> cacheKey.
Proof.
  destruct h as [|x h]; [discriminate|]. cbn [hexenc]. intros E. assert (A : hexchar (x / 16) = 67) by (injection E; auto).
  unfold hexchar in A. destruct (x / 16 <? 10) eqn:L; [apply N.ltb_lt in L|]; lia.
Qed.
Lemma rowOf_lock db db' r t l tm : wSt db' = wSt db -> rowOf db r t -> rowOf db' (setLock l tm r) t.
Proof.
  intros S (V & g & st & E & R & X). split; [exact V|]. exists g, st. split; [exact E|]. split; [rewrite R; reflexivity|]. cbn [setLock wParams wState wHash]. rewrite S. exact X.
Qed.
(* updates of the lock fields *)
Lemma good_locks p l tm db : good db -> good (mkWdb (tupd p (setLock l tm) (wTok db)) (wSt db)).
Proof.
  intros G. split; cbn [wTok wSt].
  - apply idsOk_tupd, (gd_ids _ G).
  - replace (map (fun e => wHash (snd e)) (tupd p (setLock l tm) (wTok db))) with (map (fun e => wHash (snd e)) (wTok db)); [apply (gd_uniq _ G)|].
    unfold tupd. rewrite map_map. apply map_ext. intros [i r]. cbn [fst snd]. destruct (p i r); reflexivity.
  - intros i r I. apply In_tupd in I as [[j s] [I E]]. cbn [fst snd] in E. destruct (gd_rows _ G _ _ I) as [t R]. exists t.
    destruct (p j s); assert (Er : r = snd (i, r)) by reflexivity; rewrite Er, E; cbn [snd]; [apply (rowOf_lock db); [reflexivity|exact R]|exact R].
Qed.
Lemma good_lockToken h id now db : good db -> good (snd (lockToken h id now db)).
Proof. intros G. unfold lockToken. destruct (thas _ _); [|exact G]. apply good_locks, G. Qed.
Lemma NoDup_filter_map {A B} (g : A -> B) p l : NoDup (map g l) -> NoDup (map g (filter p l)).
Proof.
  induction l as [|x l IH]; [auto|]. cbn [map filter]. intros N0. inversion_clear N0 as [|? ? N1 N2]. destruct (p x); [|auto]. cbn [map]. constructor; [|auto].
  intros I. apply N1. apply in_map_iff in I as [y [E I]]. apply filter_In in I as [I _]. rewrite <- E. apply in_map, I.
Qed.
Lemma good_del h db : wfb h -> good db -> good (delToken h db).
Proof.
  intros W G. unfold delToken, delState, delRow. cbn [wTok wSt]. split; cbn [wTok wSt].
  - apply idsOk_tdel, (gd_ids _ G).
  - apply NoDup_filter_map, (gd_uniq _ G).
  - intros i r I. apply In_tdel in I as [I B]. cbn [fst snd] in B. unfold sameHash in B. destruct (gd_rows _ G _ _ I) as (t & V & g & st & E & R & X). exists t. split; [exact V|]. exists g, st.
    split; [exact E|]. split; [exact R|]. cbn [wSt]. intros P. rewrite mget_mdel_other; [apply X; exact P|]. intros Q. rewrite Q, beq_refl in B. discriminate.
Qed.
Lemma good_set t g st db : valid t -> encodeToken t = Ok (g, st) -> good db -> good (setState (wHash g) st (setRow g db)).
Proof.
  intros V E G. destruct (decode_encode t g st 0 0 V E) as (HG & _ & NE & EQ & _ & _ & _ & _ & LK & TM).
  assert (ST : wSt (setState (wHash g) st (setRow g db)) = match st with [] => wSt db | _ => mset (wHash g) st (wSt db) end).
  { unfold setState, setRow. destruct st; destruct (thas _ _); reflexivity. }
  assert (TK : wTok (setState (wHash g) st (setRow g db)) = wTok (setRow g db)) by (unfold setState; destruct st; reflexivity).
  assert (SELF : forall l tm, rowOf (setState (wHash g) st (setRow g db)) (setLock l tm g) t).
  { intros l tm. split; [exact V|]. exists g, st. split; [exact E|]. split; [reflexivity|]. cbn [setLock wParams wState wHash]. intros P. rewrite ST. specialize (NE P). destruct st as [|c st]; [congruence|]. apply mget_mset_same. }
  assert (OTHER : forall r s, wHash r <> wHash g -> rowOf db r s -> rowOf (setState (wHash g) st (setRow g db)) r s).
  { intros r s N0 (V' & g' & st' & E' & R' & X'). split; [exact V'|]. exists g', st'. split; [exact E'|]. split; [exact R'|]. intros P. rewrite ST. specialize (X' P). destruct st; [exact X'|]. rewrite mget_mset_other; [exact X'|exact N0]. }
  assert (G0 : setLock 0 0 g = g) by (pose proof (setLock_id g) as Q; rewrite LK, TM in Q; exact Q).
  split; rewrite ?TK; unfold setRow in *; destruct (thas (sameHash (wHash g)) (wTok db)) eqn:TH; cbn [wTok] in *.
  - apply idsOk_tupd, (gd_ids _ G).
  - apply idsOk_tins, (gd_ids _ G).
  - replace (map _ (tupd _ _ _)) with (map (fun e => wHash (snd e)) (wTok db)); [apply (gd_uniq _ G)|]. unfold tupd. rewrite map_map. apply map_ext. intros [i r]. cbn [fst snd]. unfold sameHash. destruct (beq (wHash r) (wHash g)) eqn:B; [|reflexivity]. apply beq_spec in B. exact B.
  - apply NoDup_tins; [apply (gd_uniq _ G)|]. intros i b I Q. cbn [snd] in Q. pose proof (thas_false _ _ TH _ I) as Z. cbn [fst snd] in Z. unfold sameHash in Z. rewrite Q, beq_refl in Z. discriminate.
  - intros i r I. apply In_tupd in I as [[j s] [I Er]]. cbn [fst snd] in Er. unfold sameHash in Er. destruct (beq (wHash s) (wHash g)) eqn:B.
    + exists t. assert (r = setLock (wLock s) (wTime s) g) as -> by (assert (Er' : r = snd (i, r)) by reflexivity; rewrite Er', Er; reflexivity). apply SELF.
    + assert (r = s) as -> by congruence. destruct (gd_rows _ G _ _ I) as [s' R]. exists s'. apply OTHER; [intros Q; rewrite Q, beq_refl in B; discriminate|exact R].
  - intros i r I. apply In_tins in I as [I|I].
    + destruct (gd_rows _ G _ _ I) as [s' R]. exists s'. apply OTHER; [|exact R]. intros Q. pose proof (thas_false _ _ TH _ I) as Z. cbn [fst snd] in Z. unfold sameHash in Z. rewrite Q, beq_refl in Z. discriminate.
    + assert (r = g) as -> by congruence. exists t. pose proof (SELF 0%Z 0%Z) as Q. rewrite G0 in Q. exact Q.
Qed.
Lemma good_hash db i r : good db -> In (i, r) (wTok db) -> exists h, wfb h /\ wHash r = hexenc h /\ hexdec (wHash r) = Some h.
Proof.
  intros G I. destruct (gd_rows _ G _ _ I) as (t & V & g & st & E & R & _). exists (tHash t). destruct (decode_encode t g st 0 0 V E) as (H & _). assert (wHash r = hexenc (tHash t)) by (rewrite R; exact H).
  split; [apply V|]. split; [assumption|]. rewrite H0. apply hexdec_enc, V.
Qed.
(* the hashes ExpireUnusable deletes *)
Definition expired (now : Z) (db : wdb) : list bytes :=
  flat_map (fun s => match hexdec s with Some h => [h] | None => [] end) (firstn 10 (map (fun e => wHash (snd e)) (tsel (fun _ r => (wExpire r <? now - expireEdge)%Z) (wTok db)))).
Lemma firstn_In {A} n (l : list A) x : In x (firstn n l) -> In x l.
Proof. revert l. induction n as [|n IH]; intros l; [intros []|]. destruct l as [|y l]; [intros []|]. cbn [firstn]. intros [->|H]; [left; reflexivity|right; auto]. Qed.
Lemma In_expired now db h : good db -> In h (expired now db) -> wfb h /\ exists i r, In (i, r) (wTok db) /\ wHash r = hexenc h /\ (wExpire r < now - expireEdge)%Z.
Proof.
  intros G I. unfold expired in I. apply in_flat_map in I as [s [I H]]. apply firstn_In, in_map_iff in I as [[i r] [E I]]. cbn [snd] in E. apply In_tsel in I as [I L]. cbn [fst snd] in L. apply Z.ltb_lt in L.
  destruct (good_hash _ _ _ G I) as (h' & W & E1 & E2). rewrite <- E, E2 in H. destruct H as [<-|[]]. split; [exact W|]. eauto.
Qed.
Lemma good_dels hs : forall db, Forall wfb hs -> good db -> good (fold_left (fun d h => delToken h d) hs db).
Proof. induction hs as [|h hs IH]; intros db F G; [exact G|]. inversion_clear F. cbn [fold_left]. apply IH; [assumption|]. apply good_del; assumption. Qed.
Lemma good_step db o : okOp o -> good db -> good (wstep db o).
Proof.
  intros O G. destruct o; cbn [wstep okOp] in *.
  - unfold setToken. destruct (encode_ok t O) as (g & st & E). rewrite E. cbn [rbind]. apply (good_set t); assumption.
  - apply good_del; assumption.
  - apply good_lockToken, G.
  - apply good_locks, G.
  - apply good_locks, G.
  - unfold expireUnusable. cbn [snd]. apply good_dels; [|exact G]. rewrite Forall_forall. intros h I. apply (In_expired now db h G I).
  - split; cbn [wTok wSt]; [apply G|apply G|]. intros i r I. destruct (gd_rows _ G _ _ I) as (t & V & g & st & E & R & X). exists t. split; [exact V|]. exists g, st. split; [exact E|]. split; [exact R|].
    cbn [wSt]. intros P. rewrite mget_mset_other; [apply X; exact P|]. destruct (good_hash _ _ _ G I) as (h & _ & Eh & _). rewrite Eh. apply hexenc_cacheKey.
Qed.
Lemma good_run ops : forall db, Forall okOp ops -> good db -> good (wrun ops db).
Proof. induction ops as [|o ops IH]; intros db F G; [exact G|]. inversion_clear F. cbn [wrun fold_left]. apply IH; [assumption|]. apply good_step; assumption. Qed.
