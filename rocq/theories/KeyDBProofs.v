(* Lemmas about the key database. *)
From Verif Require Import Base Base64Model CodecModel IdentityModel JsonModel JsonProofs CryptoModel Maps StoreModel KeysModel HeaderModel HeaderProofs SqlModel SqlProofs KeyDBModel.
From Coq Require Import Sorting.Sorted.
Local Open Scope N_scope.

(* ------------------------------------------------------------------ *)
(* More about tables.                                                  *)
Lemma find_app {A} (p : A -> bool) a b : find p (a ++ b) = match find p a with Some r => Some r | None => find p b end.
Proof. induction a as [|x a IH]; [reflexivity|]. cbn [app find]. destruct (p x); [reflexivity|exact IH]. Qed.
Lemma tmin_tins {A} p (a : A) t : idsOk t ->
  tmin p (tins a t) = match tmin p t with Some r => Some r | None => if p (nextId t) a then Some (nextId t, a) else None end.
Proof.
  intros I. rewrite !tmin_find by (try apply idsOk_tins; assumption). unfold tins. rewrite find_app.
  destruct (find _ t); [reflexivity|]. cbn [find fst snd]. destruct (p _ a); reflexivity.
Qed.
Lemma tmin_tdel_other {A} p q (t : tbl A) : idsOk t -> (forall r, In r t -> p (fst r) (snd r) = true -> q (fst r) (snd r) = false) ->
  tmin p (tdel q t) = tmin p t.
Proof.
  intros I D. rewrite !tmin_find by (try apply idsOk_tdel; assumption). unfold tdel. revert D. clear I.
  induction t as [|r t IH]; [reflexivity|]. intros D. cbn [filter find].
  assert (DT : forall s, In s t -> p (fst s) (snd s) = true -> q (fst s) (snd s) = false) by (intros s Hs; apply D; right; exact Hs).
  destruct (q (fst r) (snd r)) eqn:Q; cbn [negb].
  - destruct (p (fst r) (snd r)) eqn:P; [|apply IH; exact DT].
    rewrite (D r (or_introl eq_refl) P) in Q. discriminate.
  - cbn [find]. destruct (p (fst r) (snd r)); [reflexivity|apply IH; exact DT].
Qed.
Lemma tmin_tdel_same {A} p (t : tbl A) : tmin p (tdel p t) = None.
Proof. apply tmin_none_intro. intros s Hs. apply In_tdel in Hs as [_ H]. exact H. Qed.
Lemma tmin_tupd {A} (p q : N -> A -> bool) (f : A -> A) (t : tbl A) : idsOk t -> (forall i a, p i (if q i a then f a else a) = p i a) ->
  tmin p (tupd q f t) = match tmin p t with Some (i, a) => Some (i, if q i a then f a else a) | None => None end.
Proof.
  intros I D. rewrite !tmin_find by (try apply idsOk_tupd; assumption). unfold tupd. clear I.
  induction t as [|[i a] t IH]; [reflexivity|]. cbn [map find fst snd]. specialize (D i a).
  destruct (q i a) eqn:Q; cbn [fst snd]; [rewrite D|]; destruct (p i a) eqn:P; try exact IH; rewrite Q; reflexivity.
Qed.
Lemma tmax_some {A} p f (t : tbl A) r : tmax p f t = Some r ->
  In r t /\ p (snd r) = true /\ forall s, In s t -> p (snd s) = true -> f (snd s) <= f (snd r).
Proof.
  revert r; induction t as [|x t IH]; intros r; cbn [tmax]; [discriminate|].
  destruct (p (snd x)) eqn:P.
  - destruct (tmax p f t) as [y|] eqn:T.
    + destruct (IH y eq_refl) as (I & Py & M). destruct (N.ltb_spec (f (snd x)) (f (snd y))) as [L|L]; intros E; injection E as <-.
      * split; [right; exact I|]. split; [exact Py|]. intros s [<-|Hs] Ps; [lia|apply M; assumption].
      * split; [left; reflexivity|]. split; [exact P|]. intros s [<-|Hs] Ps; [lia|]. specialize (M s Hs Ps). lia.
    + intros E; injection E as <-. split; [left; reflexivity|]. split; [exact P|].
      intros s [<-|Hs] Ps; [lia|]. exfalso. revert T Hs Ps. clear. revert s. induction t as [|y t IH]; intros s; cbn [tmax]; [intros _ []|].
      destruct (p (snd y)) eqn:P; [destruct (tmax p f t); [destruct (_ <? _)|]; discriminate|].
      intros T [<-|Hs] Ps; [congruence|]. exact (IH s T Hs Ps).
  - intros T. destruct (IH r T) as (I & Pr & M). split; [right; exact I|]. split; [exact Pr|].
    intros s [<-|Hs] Ps; [congruence|apply M; assumption].
Qed.
Lemma tmax_none {A} p f (t : tbl A) : tmax p f t = None -> forall s, In s t -> p (snd s) = false.
Proof.
  induction t as [|y t IH]; cbn [tmax]; [intros _ s []|].
  destruct (p (snd y)) eqn:P; [destruct (tmax p f t); [destruct (_ <? _)|]; discriminate|].
  intros T s [<-|Hs]; [exact P|apply IH; assumption].
Qed.
Lemma tmax_none_intro {A} p f (t : tbl A) : (forall s, In s t -> p (snd s) = false) -> tmax p f t = None.
Proof.
  induction t as [|y t IH]; intros H; [reflexivity|]. cbn [tmax]. rewrite (H y (or_introl eq_refl)). apply IH. intros s Hs; apply H; right; exact Hs.
Qed.

Lemma newKE_JSON k : newJSONKeyEntry (keJSON k) = Ok k.
Proof. unfold newJSONKeyEntry, keJSON. rewrite jparse_print by apply jwf_ke. rewrite keOfJson_to. reflexivity. Qed.
Lemma keJSON_nonempty k : beq (keJSON k) [] = false.
Proof. reflexivity. Qed.

(* ------------------------------------------------------------------ *)
(* Sessions: what a key store should remember (msg/session/memstore: appended lists of
   keys, a deleted key leaves an empty slot). *)
Definition slots := (list (option bytes) * list (option bytes))%type.
Definition validAdd (sk root chain : bytes) (send recv : list bytes) : bool :=
  negb (beq sk []) && negb (beq root []) && negb (beq chain []) && (lenN send =? lenN recv).
Fixpoint clear (i : nat) (l : list (option bytes)) : list (option bytes) :=
  match l, i with
  | [], _ => []
  | _ :: l', O => None :: l'
  | x :: l', S i' => x :: clear i' l'
  end.
Definition sideOf (sender : bool) (s : slots) : list (option bytes) := if sender then fst s else snd s.
Definition clearSide (sender : bool) (i : N) (s : slots) : slots :=
  if sender then (clear (N.to_nat i) (fst s), snd s) else (fst s, clear (N.to_nat i) (snd s)).
Definition memStep (m : map_ slots) (o : kop) : map_ slots :=
  match o with
  | KAddSession sk root chain send recv =>
      if validAdd sk root chain send recv
      then mset sk (match mget sk m with
                    | Some s => (fst s ++ map Some send, snd s ++ map Some recv)
                    | None => (map Some send, map Some recv)
                    end) m
      else m
  | KDelMessageKey sk sender i =>
      match mget sk m with
      | Some s => if i <? 2 ^ 63 then mset sk (clearSide sender i s) m else m
      | None => m
      end
  | _ => m
  end.
Definition memRun (ops : list kop) : map_ slots := fold_left memStep ops [].
Definition memKey (sk : bytes) (sender : bool) (i : N) (m : map_ slots) : option bytes :=
  match mget sk m with
  | Some s => if i <? 2 ^ 63 then match nth_error (sideOf sender s) (N.to_nat i) with Some (Some k) => Some k | _ => None end else None
  | None => None
  end.
(* no session is stored twice *)
Fixpoint noExtension (seen : list bytes) (ops : list kop) : Prop :=
  match ops with
  | [] => True
  | KAddSession sk root chain send recv :: ops' =>
      if validAdd sk root chain send recv then ~ In sk seen /\ noExtension (sk :: seen) ops' else noExtension seen ops'
  | _ :: ops' => noExtension seen ops'
  end.

Definition readKey (sid i : N) (sender : bool) (t : tbl keyRow) : option bytes :=
  match tmin (byKey sid i sender) t with Some (_, r) => Some (krKey r) | None => None end.
Lemma readKey_tins sid i sender r t : idsOk t ->
  readKey sid i sender (tins r t) =
  match readKey sid i sender t with Some k => Some k | None => if byKey sid i sender 0 r then Some (krKey r) else None end.
Proof.
  intros I. unfold readKey. rewrite tmin_tins by exact I. destruct (tmin _ t) as [[? ?]|]; [reflexivity|].
  unfold byKey. destruct (_ && _); reflexivity.
Qed.
Lemma insKeys_ids sid off send recv t l : idsOk t -> idsOk (fst (insKeys sid off send recv t l)).
Proof.
  revert off recv t l; induction send as [|s send IH]; intros off [|r recv] t l I; try exact I.
  cbn [insKeys]. apply IH. apply idsOk_tins, idsOk_tins, I.
Qed.
Lemma insKeys_sess sid off send recv t l r : In r (fst (insKeys sid off send recv t l)) -> In r t \/ krSess (snd r) = sid.
Proof.
  revert off recv t l; induction send as [|s send IH]; intros off [|x recv] t l I; try (left; exact I).
  cbn [insKeys] in I. apply IH in I as [I|I]; [|right; exact I]. apply In_tins in I as [I| ->]; [|right; reflexivity].
  apply In_tins in I as [I| ->]; [left; exact I|right; reflexivity].
Qed.
Lemma insKeys_read sid off send recv t l : idsOk t -> lenN send = lenN recv -> forall sid' i sender,
  readKey sid' i sender (fst (insKeys sid off send recv t l)) =
  match readKey sid' i sender t with
  | Some k => Some k
  | None => if (sid' =? sid) && (off <=? i) then nth_error (if sender then send else recv) (N.to_nat (i - off)) else None
  end.
Proof.
  revert off recv t l; induction send as [|s send IH]; intros off recv t l I L sid' i sender.
  - destruct recv as [|r recv]; [|rewrite lenN_cons, lenN_nil in L; lia]. cbn [insKeys fst].
    destruct (readKey _ _ _ t); [reflexivity|]. destruct (_ && _); [|reflexivity].
    destruct sender, (N.to_nat (i - off)); reflexivity.
  - destruct recv as [|r recv]; [rewrite lenN_cons, lenN_nil in L; lia|]. rewrite !lenN_cons in L. cbn [insKeys].
    rewrite IH by (repeat apply idsOk_tins; first [assumption|lia]). rewrite !readKey_tins by (repeat apply idsOk_tins; assumption).
    destruct (readKey sid' i sender t) as [k|]; [reflexivity|].
    unfold byKey. cbn [krSess krNum krSend krKey]. rewrite !(N.eqb_sym sid sid').
    destruct (N.eqb_spec sid' sid) as [->|NE]; cbn [andb]; [|reflexivity].
    destruct (N.eqb_spec off i) as [->|NO]; cbn [andb].
    + rewrite N.leb_refl, N.sub_diag. destruct sender; cbn [Bool.eqb]; reflexivity.
    + destruct (N.leb_spec (off + 1) i) as [H1|H1]; destruct (N.leb_spec off i) as [H2|H2]; try reflexivity; try lia.
      replace (N.to_nat (i - off)) with (S (N.to_nat (i - (off + 1)))) by lia. destruct sender; reflexivity.
Qed.
Lemma clear_nth i l j : nth_error (clear i l) j =
  if Nat.eqb j i then match nth_error l j with Some _ => Some None | None => None end else nth_error l j.
Proof.
  revert i j; induction l as [|x l IH]; intros [|i] [|j]; try reflexivity; cbn [clear nth_error Nat.eqb]; [destruct (Nat.eqb j i); reflexivity|apply IH].
Qed.

Definition flat (o : option (option bytes)) : option bytes := match o with Some x => x | None => None end.
Definition slotOk (sid : N) (s : slots) (t : tbl keyRow) : Prop :=
  forall i sender, readKey sid i sender t = flat (nth_error (sideOf sender s) (N.to_nat i)).
Record sInv (d : keydb) (m : map_ slots) : Prop := {
  si_ids : idsOk (kSess d);
  si_kids : idsOk (kKeys d);
  si_old : forall r, In r (kKeys d) -> krSess (snd r) < nextId (kSess d);
  si_none : forall sk, tmin (bySess sk) (kSess d) = None <-> mget sk m = None;
  si_uniq : forall i j r1 r2, In (i, r1) (kSess d) -> In (j, r2) (kSess d) -> srKey r1 = srKey r2 -> i = j;
  si_slot : forall sk sid r s, tmin (bySess sk) (kSess d) = Some (sid, r) -> mget sk m = Some s -> slotOk sid s (kKeys d) }.
Lemma sInv_same d m d' : sInv d m -> kSess d' = kSess d -> kKeys d' = kKeys d -> sInv d' m.
Proof. intros [? ? ? ? ? ?] E1 E2. split; rewrite ?E1, ?E2; assumption. Qed.
Lemma nth_map_flat l n : flat (nth_error (map Some l) n) = nth_error l n.
Proof. revert n; induction l as [|x l IH]; intros [|n]; try reflexivity. apply IH. Qed.
Lemma readKey_fresh d m sid i sender : sInv d m -> nextId (kSess d) <= sid -> readKey sid i sender (kKeys d) = None.
Proof.
  intros H L. unfold readKey. rewrite tmin_none_intro; [reflexivity|]. intros r Hr. pose proof (si_old _ _ H r Hr). unfold byKey.
  destruct (N.eqb_spec (krSess (snd r)) sid); [lia|reflexivity].
Qed.
Lemma nextId_tins {A} (a : A) (t : tbl A) : nextId (tins a t) = 1 + nextId t.
Proof.
  assert (G : forall l x, (forall y, In y l -> y < x) -> fold_right N.max 0 (l ++ [x]) = x).
  { induction l as [|y l IH]; intros x H; cbn [app fold_right]; [lia|]. rewrite IH by (intros; apply H; right; assumption).
    specialize (H y (or_introl eq_refl)). lia. }
  unfold nextId at 1, tins. rewrite map_app. cbn [map fst]. rewrite G; [reflexivity|].
  intros y Hy. apply in_map_iff in Hy as (r & <- & Hr). apply nextId_gt. exact Hr.
Qed.
Lemma tmin_In {A} p (t : tbl A) r : tmin p t = Some r -> In r t.
Proof. intros H. apply tmin_some in H as [H _]. exact H. Qed.
Lemma bySess_spec sk i r : bySess sk i r = true <-> srKey r = sk.
Proof. unfold bySess. apply beq_spec. Qed.

Lemma kstep_sess U d m o : sInv d m ->
  (forall sk root chain send recv, o = KAddSession sk root chain send recv -> validAdd sk root chain send recv = true -> mget sk m = None) ->
  sInv (kstep U d o) (memStep m o).
Proof.
  intros H F. destruct o; cbn [memStep]; unfold kstep; cbn [kexec];
    try (unfold dbSetState, dbAddSessionKey, dbDelPriv, addPrivateUID, addPrivateUIDReply, delPrivateUID, addPublicUID, addChainEntry;
      repeat match goal with |- context [if ?b then _ else _] => destruct b end;
      first [exact H | apply sInv_same with d; [exact H|reflexivity|reflexivity]]).
  - (* AddSession *)
    specialize (F sk root chain send recv eq_refl). unfold validAdd, addSession in *.
    destruct (beq sk []); [exact H|]. destruct (beq root []); [exact H|]. destruct (beq chain []); [exact H|].
    destruct (lenN send =? lenN recv) eqn:L; [|exact H]. apply N.eqb_eq in L. cbn [negb andb] in *. specialize (F eq_refl).
    rewrite F. pose proof (proj2 (si_none _ _ H sk) F) as TN. rewrite TN.
    set (d1 := setSess _ _ d). destruct (insKeys _ _ _ _ _ _) as [t l] eqn:IK.
    assert (Et : t = fst (insKeys (kLast d1) 0 send recv (kKeys d1) (kLast d1))) by (rewrite IK; reflexivity).
    change (kLast d1) with (nextId (kSess d)) in Et. change (kKeys d1) with (kKeys d) in Et. clear IK.
    assert (IT : idsOk t) by (subst t; apply insKeys_ids, si_kids with m, H).
    assert (RD : forall sid i sender, readKey sid i sender t =
      match readKey sid i sender (kKeys d) with Some k => Some k | None =>
        if sid =? nextId (kSess d) then nth_error (if sender then send else recv) (N.to_nat i) else None end).
    { intros sid i sender. subst t. rewrite insKeys_read by (try apply (si_kids _ _ H); assumption).
      destruct (readKey _ _ _ (kKeys d)); [reflexivity|]. rewrite N.sub_0_r. assert (Z0 : (0 <=? i) = true) by (apply N.leb_le; lia). rewrite Z0. destruct (sid =? nextId (kSess d)); reflexivity. }
    split; cbn [kSess kKeys setKeys d1 setSess]; rewrite ?nextId_tins.
    + apply idsOk_tins, si_ids with m, H.
    + exact IT.
    + intros r Hr. subst t. apply insKeys_sess in Hr as [Hr|Hr]; [|lia]. pose proof (si_old _ _ H r Hr). lia.
    + intros sk'. rewrite tmin_tins by (apply si_ids with m, H). rewrite mget_mset. cbn [bySess srKey]. unfold bySess at 2. cbn [srKey].
      rewrite (beq_sym sk sk'). destruct (beq sk' sk) eqn:B.
      * apply beq_spec in B as ->. rewrite TN. split; discriminate.
      * rewrite <- (si_none _ _ H sk'). destruct (tmin (bySess sk') (kSess d)); reflexivity.
    + assert (NK : forall i r, In (i, r) (kSess d) -> srKey r <> sk).
      { intros i r I E. pose proof (tmin_none _ _ TN (i, r) I) as X. cbn in X. unfold bySess in X. rewrite E, beq_refl in X. discriminate. }
      intros i j r1 r2 I J E. apply In_tins in I as [I|I]; apply In_tins in J as [J|J].
      * apply (si_uniq _ _ H) with r1 r2; assumption.
      * injection J as -> ->. cbn [srKey] in E. exfalso. apply (NK _ _ I). exact E.
      * injection I as -> ->. cbn [srKey] in E. exfalso. apply (NK _ _ J). congruence.
      * congruence.
    + intros sk' sid r s. rewrite tmin_tins by (apply si_ids with m, H). rewrite mget_mset. unfold bySess at 2. cbn [srKey].
      rewrite (beq_sym sk sk'). destruct (beq sk' sk) eqn:B.
      * apply beq_spec in B as ->. rewrite TN. intros E1 E2. injection E1 as <- <-. injection E2 as <-. intros i sender.
        rewrite RD, (readKey_fresh _ _ _ _ _ H) by lia. rewrite N.eqb_refl. unfold sideOf. cbn [fst snd].
        destruct sender; rewrite nth_map_flat; reflexivity.
      * intros E1 E2 i sender. destruct (tmin (bySess sk') (kSess d)) as [r0|] eqn:TM; [|discriminate]. injection E1 as ->.
        rewrite RD. rewrite (si_slot _ _ H sk' sid r s TM E2). destruct (flat _); [reflexivity|].
        pose proof (nextId_gt _ _ (tmin_In _ _ _ TM)) as G. cbn [fst] in G. destruct (N.eqb_spec sid (nextId (kSess d))); [lia|reflexivity].
  - (* DelMessageKey *)
    clear F. unfold dbDelMessageKey. destruct (tmin (bySess sk) (kSess d)) as [[sid r]|] eqn:TM.
    2: { pose proof (proj1 (si_none _ _ H sk) TM) as ->. exact H. }
    destruct (mget sk m) as [s|] eqn:G; [|apply (si_none _ _ H) in G; congruence].
    unfold sqlInt. destruct (i <? 2 ^ 63); cbn [negb]; [|exact H].
    assert (IO := si_kids _ _ H).
    split; cbn [kSess kKeys setKeys].
    + apply si_ids with m, H.
    + apply idsOk_tdel, IO.
    + intros x Hx. apply In_tdel in Hx as [Hx _]. apply (si_old _ _ H x Hx).
    + intros sk'. rewrite mget_mset. destruct (beq sk' sk) eqn:B; [|apply (si_none _ _ H)].
      apply beq_spec in B as ->. rewrite TM. split; discriminate.
    + apply (si_uniq _ _ H).
    + intros sk' sid' r' s' TM' G' j sender'. rewrite mget_mset in G'. destruct (beq sk' sk) eqn:B.
      * apply beq_spec in B as ->. rewrite TM in TM'. injection TM' as <- <-. injection G' as <-.
        pose proof (si_slot _ _ H sk sid r s TM G) as SO.
        destruct (Bool.bool_dec sender' sender) as [->|NS]; [destruct (N.eq_dec j i) as [->|NJ]|].
        -- unfold readKey. rewrite tmin_tdel_same. unfold sideOf, clearSide. destruct sender; cbn [fst snd];
             rewrite clear_nth, Nat.eqb_refl; destruct (nth_error _ _); reflexivity.
        -- assert (X : readKey sid j sender (tdel (byKey sid i sender) (kKeys d)) = readKey sid j sender (kKeys d)).
           { unfold readKey. rewrite tmin_tdel_other; [reflexivity|exact IO|]. intros x _. unfold byKey. rewrite !andb_true_iff, !N.eqb_eq. intros [[_ <-] _].
             destruct (N.eqb_spec (krNum (snd x)) i); [contradiction|]. rewrite andb_false_r. reflexivity. }
           rewrite X, SO. unfold sideOf, clearSide. destruct sender; cbn [fst snd]; rewrite clear_nth;
             (destruct (Nat.eqb_spec (N.to_nat j) (N.to_nat i)); [lia|reflexivity]).
        -- assert (X : readKey sid j sender' (tdel (byKey sid i sender) (kKeys d)) = readKey sid j sender' (kKeys d)).
           { unfold readKey. rewrite tmin_tdel_other; [reflexivity|exact IO|]. intros x _. unfold byKey. rewrite !andb_true_iff. intros [_ E].
             apply Bool.eqb_prop in E. rewrite E. destruct (Bool.eqb sender' sender) eqn:EB; [apply Bool.eqb_prop in EB; contradiction|]. rewrite andb_false_r. reflexivity. }
           rewrite X, SO. unfold sideOf, clearSide. destruct sender', sender; try reflexivity; contradiction.
      * pose proof (si_slot _ _ H sk' sid' r' s' TM' G') as SO.
        assert (NE : sid' <> sid).
        { intros ->. apply beq_neq in B. apply B. apply tmin_some in TM as [I1 P1]. apply tmin_some in TM' as [I2 P2].
          cbn [fst snd] in *. apply bySess_spec in P1, P2. pose proof (idsOk_unique _ _ _ _ (si_ids _ _ H) I1 I2). congruence. }
        assert (X : readKey sid' j sender' (tdel (byKey sid i sender) (kKeys d)) = readKey sid' j sender' (kKeys d)).
        { unfold readKey. rewrite tmin_tdel_other; [reflexivity|exact IO|]. intros x _. unfold byKey. rewrite !andb_true_iff, !N.eqb_eq. intros [[<- _] _].
          destruct (N.eqb_spec (krSess (snd x)) sid); [contradiction|reflexivity]. }
        rewrite X. apply SO.
Qed.
Lemma sInv_empty : sInv emptyKDB [].
Proof.
  split; try apply idsOk_nil.
  - intros r [].
  - intros sk. split; reflexivity.
  - intros i j r1 r2 [].
  - intros sk sid r s E. discriminate.
Qed.
Lemma sess_run U ops : forall d m seen, sInv d m -> (forall sk, mget sk m <> None -> In sk seen) -> noExtension seen ops ->
  sInv (krun U ops d) (fold_left memStep ops m).
Proof.
  induction ops as [|o ops IH]; intros d m seen H S F; [exact H|]. cbn [krun fold_left].
  assert (D : exists seen', noExtension seen' ops /\ (forall sk, mget sk (memStep m o) <> None -> In sk seen') /\
    (forall sk root chain send recv, o = KAddSession sk root chain send recv -> validAdd sk root chain send recv = true -> mget sk m = None)).
  { destruct o; cbn [noExtension memStep] in *; try (exists seen; repeat split; [exact F|exact S|discriminate]).
    - destruct (validAdd sk root chain send recv) eqn:V.
      + destruct F as [NI F]. assert (G : mget sk m = None) by (destruct (mget sk m) eqn:G; [elim NI; apply S; congruence|reflexivity]).
        exists (sk :: seen). repeat split; [exact F| |].
        * intros sk'. rewrite mget_mset. destruct (beq sk' sk) eqn:B; [apply beq_spec in B as ->; left; reflexivity|right; apply S; assumption].
        * intros ? ? ? ? ? E V'. injection E as -> -> -> -> ->. exact G.
      + exists seen. repeat split; [exact F|exact S|]. intros ? ? ? ? ? E V'. injection E as -> -> -> -> ->. congruence.
    - exists seen. repeat split; [exact F| |discriminate]. intros sk'. destruct (mget sk m) as [s|] eqn:G; [|apply S].
      destruct (i <? 2 ^ 63); [|apply S]. rewrite mget_mset. destruct (beq sk' sk) eqn:B; [|apply S].
      apply beq_spec in B as ->. intros _. apply S. congruence. }
  destruct D as (seen' & F' & S' & A). apply (IH _ _ seen'); [|exact S'|exact F']. apply kstep_sess; assumption.
Qed.
Lemma dbMessageKey_mem d m sk sender i : sInv d m ->
  match dbMessageKey sk sender i d with Ok k => memKey sk sender i m = Some k | Err _ => memKey sk sender i m = None | Panic => False end.
Proof.
  intros H. unfold dbMessageKey, memKey. destruct (tmin (bySess sk) (kSess d)) as [[sid r]|] eqn:TM.
  - destruct (mget sk m) as [s|] eqn:G; [|apply (si_none _ _ H) in G; congruence]. unfold sqlInt.
    destruct (i <? 2 ^ 63); cbn [negb]; [|reflexivity]. pose proof (si_slot _ _ H sk sid r s TM G i sender) as SO. unfold readKey in SO.
    destruct (tmin (byKey sid i sender) (kKeys d)) as [[? ?]|]; unfold flat in SO; destruct (nth_error _ _) as [[?|]|]; try discriminate; congruence.
  - apply (si_none _ _ H) in TM. rewrite TM. reflexivity.
Qed.

(* ------------------------------------------------------------------ *)
(* Session states: the last successful write per key.                  *)
Definition stateValid (k : bytes) (s : state) : bool :=
  negb (beq k []) && (stSessCount s <? 2 ^ 63) && (stMsgCount s <? 2 ^ 63) && (stMaxRecv s <? 2 ^ 63).
Fixpoint lastState (k : bytes) (acc : option state) (ops : list kop) : option state :=
  match ops with
  | [] => acc
  | KSetState k' s :: ops' => lastState k (if beq k' k && stateValid k' s then Some s else acc) ops'
  | _ :: ops' => lastState k acc ops'
  end.
Definition stRead (k : bytes) (d : keydb) : option stRow :=
  match tmin (byState k) (kStates d) with Some (_, r) => Some r | None => None end.
Lemma kexec_states U o d d' : kexec U o d = Ok d' -> (forall k s, o <> KSetState k s) -> kStates d' = kStates d.
Proof.
  intros E N. destruct o; cbn [kexec] in E; try (exfalso; eapply N; reflexivity);
    unfold dbDelMessageKey, dbAddSessionKey, dbDelPriv, addPrivateUID, addPrivateUIDReply, delPrivateUID, addPublicUID, addChainEntry in E.
  1: { unfold addSession in E. do 4 (destruct (_ : bool) in E; [discriminate|]). destruct (tmin _ _) as [[? ?]|]; destruct (insKeys _ _ _ _ _ _); injection E as <-; reflexivity. }
  1: { destruct (tmin _ _) as [[? ?]|]; [|discriminate]. destruct (negb _); [discriminate|]. injection E as <-; reflexivity. }
  all: repeat match type of E with (if ?b then _ else _) = _ => destruct b; [discriminate|] end; injection E as <-; reflexivity.
Qed.
Lemma kstep_states U o d k : idsOk (kStates d) -> idsOk (kStates (kstep U d o)) /\
  stRead k (kstep U d o) = match o with
    | KSetState k' s => if beq k' k && stateValid k' s then Some (stateRow k s) else stRead k d
    | _ => stRead k d end.
Proof.
  intros I. unfold kstep. destruct (kexec U o d) as [d'|e|] eqn:E.
  - destruct o; try (pose proof (kexec_states _ _ _ _ E ltac:(discriminate)) as X; unfold stRead; rewrite X; split; [exact I|reflexivity]).
    cbn [kexec] in E. unfold dbSetState in E. unfold stateValid, sqlInt in *.
    destruct (beq k0 []); [discriminate|]. destruct (stSessCount s <? 2 ^ 63); [|discriminate].
    destruct (stMsgCount s <? 2 ^ 63); [|discriminate]. destruct (stMaxRecv s <? 2 ^ 63); [|discriminate]. cbn [negb andb] in *. rewrite andb_true_r.
    destruct (thas (byState k0) (kStates d)) eqn:T; injection E as <-; unfold stRead; cbn [kStates setStates].
    + split; [apply idsOk_tupd, I|]. rewrite tmin_tupd; [|exact I|].
      * destruct (beq k0 k) eqn:B.
        -- apply beq_spec in B as ->. destruct (tmin (byState k) (kStates d)) as [[i a]|] eqn:TM.
           ++ apply tmin_some in TM as [_ P]. cbn [fst snd] in P. rewrite P. reflexivity.
           ++ apply thas_true in T as (r & Hr & P). rewrite (tmin_none _ _ TM r Hr) in P. discriminate.
        -- destruct (tmin (byState k) (kStates d)) as [[i a]|] eqn:TM; [|reflexivity].
           apply tmin_some in TM as [_ P]. cbn [fst snd] in P. unfold byState in *. apply beq_spec in P. rewrite P, beq_sym, B. reflexivity.
      * intros i a. unfold byState. destruct (beq (sxKey a) k0) eqn:B; [|reflexivity]. apply beq_spec in B. cbn [stateRow sxKey]. rewrite B. reflexivity.
    + split; [apply idsOk_tins, I|]. rewrite tmin_tins by exact I. unfold byState at 2. cbn [stateRow sxKey]. destruct (beq k0 k) eqn:B.
      * apply beq_spec in B as ->. destruct (tmin (byState k) (kStates d)) as [r|] eqn:TM; [|reflexivity].
        apply tmin_some in TM as [Hr P]. rewrite (thas_false _ _ T r Hr) in P. discriminate.
      * destruct (tmin (byState k) (kStates d)) as [[i a]|] eqn:TM; reflexivity.
  - destruct o; try (split; [exact I|reflexivity]). split; [exact I|]. cbn [kexec] in E. unfold dbSetState in E. unfold stateValid, sqlInt in *.
    destruct (beq k0 []); cbn [negb andb] in *; [rewrite andb_false_r; reflexivity|].
    destruct (stSessCount s <? 2 ^ 63); cbn [negb andb] in *; [|rewrite andb_false_r; reflexivity].
    destruct (stMsgCount s <? 2 ^ 63); cbn [negb andb] in *; [|rewrite andb_false_r; reflexivity].
    destruct (stMaxRecv s <? 2 ^ 63); cbn [negb andb] in *; [|rewrite andb_false_r; reflexivity]. destruct (thas _ _); discriminate.
  - exfalso. destruct o; cbn [kexec] in E;
    unfold dbSetState, dbDelMessageKey, dbAddSessionKey, dbDelPriv, addPrivateUID, addPrivateUIDReply, delPrivateUID, addPublicUID, addChainEntry, addSession in E;
    repeat match type of E with (if ?b then _ else _) = _ => destruct b | (let (_, _) := ?x in _) = _ => destruct x | match ?x with Some _ => _ | None => _ end = _ => destruct x as [[? ?]|] end; discriminate.
Qed.
Lemma states_run U ops k : forall d acc, idsOk (kStates d) -> stRead k d = match acc with Some s => Some (stateRow k s) | None => None end ->
  stRead k (krun U ops d) = match lastState k acc ops with Some s => Some (stateRow k s) | None => None end.
Proof.
  induction ops as [|o ops IH]; intros d acc I R; [exact R|]. cbn [krun fold_left]. destruct (kstep_states U o d k I) as [I' R'].
  assert (G : lastState k acc (o :: ops) = lastState k (match o with KSetState k' s => if beq k' k && stateValid k' s then Some s else acc | _ => acc end) ops) by (destruct o; reflexivity).
  rewrite G. apply IH; [exact I'|]. rewrite R'. destruct o; try exact R. destruct (_ && _); [reflexivity|exact R].
Qed.
Lemma optKE_JSON o : optKE (optJSON o) = Ok o.
Proof. destruct o as [k|]; [|reflexivity]. unfold optKE, optJSON. rewrite keJSON_nonempty, newKE_JSON. reflexivity. Qed.
Lemma getState_read k d : beq k [] = false -> forall s, stRead k d = Some (stateRow k s) -> dbGetState k d = Ok (Some s).
Proof.
  intros B s R. unfold dbGetState. rewrite B. unfold stRead in R. destruct (tmin _ _) as [[? r]|]; [|discriminate]. injection R as ->.
  destruct s as [a b c rt sp nx sn ny ki]. unfold stateRow. cbn [sxTemp sxPub sxNext sxSeen sxSess sxMsg sxMax sxNym sxInit stSessCount stMsgCount stMaxRecv stRecipTemp stSenderPub stNextSender stNextSeen stNym stKeyInit].
  rewrite !newKE_JSON, !optKE_JSON. reflexivity.
Qed.

(* ------------------------------------------------------------------ *)
(* Session keys: the in-memory store keeps one entry per hash.          *)
Definition skeyValid (h j p : bytes) (c : N) : bool := negb (beq h []) && negb (beq j []) && negb (beq p []) && (c <? 2 ^ 63).
Definition memSKey (h : bytes) (acc : option (bytes * bytes)) (o : kop) : option (bytes * bytes) :=
  match o with
  | KAddSessionKey h' j p c => if beq h' h && skeyValid h' j p c then Some (j, p) else acc
  | KDelPriv h' => if beq h' h then match acc with Some (j, _) => Some (j, []) | None => None end else acc
  | _ => acc
  end.
Fixpoint addedOnce (h : bytes) (seen : bool) (ops : list kop) : Prop :=
  match ops with
  | [] => True
  | KAddSessionKey h' j p c :: ops' => if beq h' h && skeyValid h' j p c then seen = false /\ addedOnce h true ops' else addedOnce h seen ops'
  | _ :: ops' => addedOnce h seen ops'
  end.
Definition skRead (h : bytes) (d : keydb) : option (bytes * bytes) :=
  match tmin (bySKey h) (kSKeys d) with Some (_, r) => Some (skrJson r, skrPriv r) | None => None end.
Lemma kexec_skeys U o d d' : kexec U o d = Ok d' -> (forall h j p c, o <> KAddSessionKey h j p c) -> (forall h, o <> KDelPriv h) -> kSKeys d' = kSKeys d.
Proof.
  intros E N N2. destruct o; cbn [kexec] in E; try (exfalso; eapply N; reflexivity); try (exfalso; eapply N2; reflexivity);
    unfold dbDelMessageKey, dbSetState, addPrivateUID, addPrivateUIDReply, delPrivateUID, addPublicUID, addChainEntry in E.
  1: { unfold addSession in E. do 4 (destruct (_ : bool) in E; [discriminate|]). destruct (tmin _ _) as [[? ?]|]; destruct (insKeys _ _ _ _ _ _); injection E as <-; reflexivity. }
  1: { destruct (tmin _ _) as [[? ?]|]; [|discriminate]. destruct (negb _); [discriminate|]. injection E as <-; reflexivity. }
  1: { do 2 (destruct (_ : bool) in E; [discriminate|]). destruct (thas _ _); injection E as <-; reflexivity. }
  all: repeat match type of E with (if ?b then _ else _) = _ => destruct b; [discriminate|] end; injection E as <-; reflexivity.
Qed.
Lemma addSessionKey_ok h j p c d : skeyValid h j p c = true ->
  dbAddSessionKey h j p c d = Ok (setSKeys (tins (mkSkR h j p c) (kSKeys d)) (nextId (kSKeys d)) d).
Proof.
  unfold skeyValid, dbAddSessionKey, sqlInt. intros V. apply andb_prop in V as [V V4]. apply andb_prop in V as [V V3]. apply andb_prop in V as [V1 V2].
  rewrite negb_true_iff in V1, V2, V3. rewrite V1, V2, V3, V4. reflexivity.
Qed.
Lemma addSessionKey_err h j p c d : skeyValid h j p c = false -> exists e, dbAddSessionKey h j p c d = Err e.
Proof.
  unfold skeyValid, dbAddSessionKey, sqlInt. intros V.
  destruct (beq h []); [eexists; reflexivity|]. destruct (beq j []); [eexists; reflexivity|]. destruct (beq p []); [eexists; reflexivity|].
  cbn [negb andb] in V. rewrite V. eexists; reflexivity.
Qed.
Lemma kstep_skeys U o d h : h <> [] -> idsOk (kSKeys d) -> idsOk (kSKeys (kstep U d o)) /\
  ((forall h' j p c, o = KAddSessionKey h' j p c -> beq h' h && skeyValid h' j p c = true -> skRead h d = None) ->
   skRead h (kstep U d o) = memSKey h (skRead h d) o).
Proof.
  intros HN I. unfold kstep. destruct o;
    try (destruct (kexec U _ d) as [d'|e|] eqn:E; [|split; [exact I|reflexivity]|split; [exact I|reflexivity]];
         pose proof (kexec_skeys _ _ _ _ E ltac:(discriminate) ltac:(discriminate)) as X; unfold skRead; rewrite X; split; [exact I|reflexivity]).
  - cbn [kexec memSKey]. destruct (skeyValid h0 j p cleanup) eqn:V.
    + rewrite addSessionKey_ok by exact V. cbn [kSKeys setSKeys]. split; [apply idsOk_tins, I|]. intros F.
      specialize (F h0 j p cleanup eq_refl). rewrite V, andb_true_r in F. rewrite andb_true_r.
      unfold skRead in *. cbn [kSKeys setSKeys]. rewrite tmin_tins by exact I. unfold bySKey at 2. cbn [skrHash].
      destruct (beq h0 h); [|destruct (tmin (bySKey h) (kSKeys d)) as [[? ?]|]; reflexivity].
      specialize (F eq_refl). destruct (tmin (bySKey h) (kSKeys d)) as [[? ?]|]; [discriminate|reflexivity].
    + destruct (addSessionKey_err h0 j p cleanup d V) as [e ->]. rewrite andb_false_r. split; [exact I|reflexivity].
  - cbn [kexec memSKey]. unfold dbDelPriv. destruct (beq h0 []) eqn:B0.
    + apply beq_spec in B0 as ->. split; [exact I|]. intros _. destruct (beq [] h) eqn:B; [apply beq_spec in B; congruence|reflexivity].
    + cbn [kSKeys setSKeys]. split; [apply idsOk_tupd, I|]. intros _. unfold skRead. cbn [kSKeys setSKeys].
      rewrite tmin_tupd; [|exact I|intros i a; unfold bySKey; destruct (beq (skrHash a) h0); reflexivity].
      destruct (tmin (bySKey h) (kSKeys d)) as [[i a]|] eqn:TM; [|destruct (beq h0 h); reflexivity].
      apply tmin_some in TM as [_ P]. cbn [fst snd] in P. unfold bySKey in *. apply beq_spec in P. rewrite P, (beq_sym h h0).
      destruct (beq h0 h); reflexivity.
Qed.
Lemma memSKey_some h acc o x : memSKey h acc o = Some x -> acc <> None \/ exists h' j p c, o = KAddSessionKey h' j p c /\ beq h' h && skeyValid h' j p c = true.
Proof.
  destruct o; cbn [memSKey]; try (intros ->; left; discriminate).
  - destruct (_ && _) eqn:V; [|intros ->; left; discriminate]. intros _. right. do 4 eexists. split; [reflexivity|exact V].
  - destruct (beq _ _); [|intros ->; left; discriminate]. destruct acc; [left; discriminate|discriminate].
Qed.
Lemma skeys_run U ops h : h <> [] -> forall d seen, idsOk (kSKeys d) -> (skRead h d <> None -> seen = true) -> addedOnce h seen ops ->
  skRead h (krun U ops d) = fold_left (memSKey h) ops (skRead h d).
Proof.
  intros HN. induction ops as [|o ops IH]; intros d seen I S F; [reflexivity|]. cbn [krun fold_left].
  destruct (kstep_skeys U o d h HN I) as [I' R].
  assert (A : forall h' j p c, o = KAddSessionKey h' j p c -> beq h' h && skeyValid h' j p c = true -> skRead h d = None).
  { intros h' j p c -> V. cbn [addedOnce] in F. rewrite V in F. destruct F as [F _]. destruct (skRead h d); [|reflexivity].
    assert (seen = true) by (apply S; discriminate). congruence. }
  rewrite <- (R A). apply IH with (match o with KAddSessionKey h' j p c => if beq h' h && skeyValid h' j p c then true else seen | _ => seen end).
  - exact I'.
  - rewrite (R A). intros G. destruct (memSKey h (skRead h d) o) as [x|] eqn:MS; [|contradiction].
    apply memSKey_some in MS as [MS|(h' & j & p & c & -> & V)]; [|rewrite V; reflexivity].
    specialize (S MS). subst seen. destruct o; try reflexivity. destruct (_ && _); reflexivity.
  - destruct o; try exact F. cbn [addedOnce] in F. destruct (_ && _); [apply F|exact F].
Qed.

(* ------------------------------------------------------------------ *)
(* UID messages.                                                        *)
Definition pubValid (u : uidMsg) (pos : N) : bool := (uMsgCount u <? 2 ^ 63) && (pos <? 2 ^ 63).
Definition pubAdds (ops : list kop) : list (uidMsg * N) :=
  flat_map (fun o => match o with KAddPublicUID u pos => if pubValid u pos then [(u, pos)] else [] | _ => [] end) ops.
Definition pubRowOf (x : uidMsg * N) : pubRow := mkPub (uIdentity (fst x)) (uMsgCount (fst x)) (snd x) (uidJSON (fst x)).
Lemma kexec_pub U o d d' : kexec U o d = Ok d' -> (forall u pos, o <> KAddPublicUID u pos) -> kPub d' = kPub d.
Proof.
  intros E N. destruct o; cbn [kexec] in E; try (exfalso; eapply N; reflexivity);
    unfold dbDelMessageKey, dbSetState, dbAddSessionKey, dbDelPriv, addPrivateUID, addPrivateUIDReply, delPrivateUID, addPublicUID, addChainEntry in E.
  1: { unfold addSession in E. do 4 (destruct (_ : bool) in E; [discriminate|]). destruct (tmin _ _) as [[? ?]|]; destruct (insKeys _ _ _ _ _ _); injection E as <-; reflexivity. }
  1: { destruct (tmin _ _) as [[? ?]|]; [|discriminate]. destruct (negb _); [discriminate|]. injection E as <-; reflexivity. }
  1: { do 2 (destruct (_ : bool) in E; [discriminate|]). destruct (thas _ _); injection E as <-; reflexivity. }
  all: repeat match type of E with (if ?b then _ else _) = _ => destruct b; [discriminate|] end; injection E as <-; reflexivity.
Qed.
Lemma pub_run U ops : forall d, map snd (kPub (krun U ops d)) = map snd (kPub d) ++ map pubRowOf (pubAdds ops).
Proof.
  induction ops as [|o ops IH]; intros d; [cbn; rewrite app_nil_r; reflexivity|]. cbn [krun fold_left].
  change (pubAdds (o :: ops)) with ((match o with KAddPublicUID u pos => if pubValid u pos then [(u, pos)] else [] | _ => [] end) ++ pubAdds ops).
  etransitivity; [apply IH|]. rewrite map_app, app_assoc. f_equal. unfold kstep.
  destruct o; try (destruct (kexec U _ d) as [d'|e|] eqn:E; [|rewrite app_nil_r; reflexivity|rewrite app_nil_r; reflexivity];
         rewrite (kexec_pub _ _ _ _ E ltac:(discriminate)), app_nil_r; reflexivity).
  cbn [kexec]. unfold addPublicUID, pubValid, sqlInt. destruct (_ && _); cbn [negb map]; [|rewrite app_nil_r; reflexivity].
  cbn [kPub setPub]. unfold tins. rewrite map_app. reflexivity.
Qed.

(* own UID messages: added and not deleted since *)
Definition privStep (l : list uidMsg) (o : kop) : list uidMsg :=
  match o with
  | KAddPrivateUID u => if uMsgCount u <? 2 ^ 63 then l ++ [u] else l
  | KDelPrivateUID u => filter (fun x => negb (beq (uidJSON x) (uidJSON u))) l
  | _ => l
  end.
Definition privRel (r : privRow) (u : uidMsg) : Prop := pvIdentity r = uIdentity u /\ pvCount r = uMsgCount u /\ pvMsg r = uidJSON u.
Lemma kexec_priv U o d d' : kexec U o d = Ok d' -> (forall u, o <> KAddPrivateUID u) -> (forall u r, o <> KAddPrivateUIDReply u r) ->
  (forall u, o <> KDelPrivateUID u) -> kPriv d' = kPriv d.
Proof.
  intros E N1 N2 N3. destruct o; cbn [kexec] in E; try (exfalso; eapply N1; reflexivity); try (exfalso; eapply N2; reflexivity); try (exfalso; eapply N3; reflexivity);
    unfold dbDelMessageKey, dbSetState, dbAddSessionKey, dbDelPriv, addPublicUID, addChainEntry in E.
  1: { unfold addSession in E. do 4 (destruct (_ : bool) in E; [discriminate|]). destruct (tmin _ _) as [[? ?]|]; destruct (insKeys _ _ _ _ _ _); injection E as <-; reflexivity. }
  1: { destruct (tmin _ _) as [[? ?]|]; [|discriminate]. destruct (negb _); [discriminate|]. injection E as <-; reflexivity. }
  1: { do 2 (destruct (_ : bool) in E; [discriminate|]). destruct (thas _ _); injection E as <-; reflexivity. }
  all: repeat match type of E with (if ?b then _ else _) = _ => destruct b; [discriminate|] end; injection E as <-; reflexivity.
Qed.
Lemma priv_run U ops : forall d l, Forall2 privRel (map snd (kPriv d)) l -> Forall2 privRel (map snd (kPriv (krun U ops d))) (fold_left privStep ops l).
Proof.
  induction ops as [|o ops IH]; intros d l H; [exact H|]. cbn [krun fold_left]. apply IH. unfold kstep.
  destruct o; try (destruct (kexec U _ d) as [d'|e|] eqn:E; [|exact H|exact H];
         rewrite (kexec_priv _ _ _ _ E ltac:(discriminate) ltac:(discriminate) ltac:(discriminate)); exact H).
  - cbn [kexec privStep]. unfold addPrivateUID, sqlInt. destruct (_ <? _); cbn [negb]; [|exact H].
    cbn [kPriv setPriv]. unfold tins. rewrite map_app. apply Forall2_app; [exact H|]. repeat constructor.
  - cbn [kexec privStep]. unfold addPrivateUIDReply. cbn [kPriv setPriv]. unfold tupd. rewrite map_map.
    revert l H. induction (kPriv d) as [|r0 t IHt]; intros l H; cbn [map] in *; inversion H as [|? ? ? ? R T]; subst; constructor; [|apply IHt; assumption].
    destruct (beq _ _); [|exact R]. cbn [snd]. exact R.
  - cbn [kexec privStep]. unfold delPrivateUID. cbn [kPriv setPriv]. unfold tdel.
    revert l H. induction (kPriv d) as [|r t IHt]; intros l H; cbn [map] in *; inversion H as [|? ? ? ? R T]; subst; [constructor|].
    cbn [filter]. destruct R as (R1 & R2 & R3). rewrite R3. destruct (beq _ _); cbn [negb]; [apply IHt; assumption|].
    cbn [map]. constructor; [repeat split; assumption|apply IHt; assumption].
Qed.
