(* Properties of the key database: C15 message keys of sessions, C42 which UID message
   is used, C76 session states, C77 session keys. *)
From Verif Require Import Base Base64Model CodecModel IdentityModel IdentityProofs JsonModel CryptoModel Maps StoreModel KeysModel HeaderModel HeaderProofs SqlModel SqlProofs KeyDBModel KeyDBProofs.
Local Open Scope N_scope.

(* ------------------------------------------------------------------ *)
(* C15: every stored key can be read back under its number until it is deleted.
   The specification memRun keeps, per session, the list of keys stored so far;
   extending a session appends to the list. *)
(* Full statement, false: forall ops sk sender i k,
     memKey sk sender i (memRun ops) = Some k -> dbMessageKey sk sender i (krun U ops emptyKDB) = Ok k. *)
Definition x1 := str "s1". Definition x2 := str "s2". Definition x3 := str "s3". Definition x4 := str "s4".
Definition rt := str "root". Definition ck := str "chain".
Definition add1 (s : bytes) (l : list bytes) : kop := KAddSession s rt ck l l.
Theorem C15_refuted : exists U ops sk sender i k,
  memKey sk sender i (memRun ops) = Some k /\ is_ok (dbMessageKey sk sender i (krun U ops emptyKDB)) = false.
Proof.
  exists goUnicode, [add1 x1 [str "k0"; str "k1"]; add1 x1 [str "k2"; str "k3"]], x1, true, 2, (str "k2").
  vm_compute. auto.
Qed.
(* worse: a key of another session is returned.  The extension of s1 is filed under row id 4,
   which later becomes the row id of s4; the first key found for number 2 of s4 is then s1's. *)
Theorem C15_confusion_refuted : exists U ops sk sender i k k',
  memKey sk sender i (memRun ops) = Some k /\ dbMessageKey sk sender i (krun U ops emptyKDB) = Ok k' /\ k <> k' /\
  memKey x1 sender i (memRun ops) = Some k'.
Proof.
  exists goUnicode, [add1 x1 [str "k0"; str "k1"]; add1 x1 [str "k2"; str "k3"];
    add1 x2 [str "a0"]; add1 x3 [str "b0"]; add1 x4 [str "c0"; str "c1"; str "c2"]], x4, true, 2, (str "c2"), (str "k2").
  split; [vm_compute; reflexivity|]. split; [vm_compute; reflexivity|]. split; [discriminate|vm_compute; reflexivity].
Qed.
(* If no session is ever stored twice, the database answers exactly like the specification. *)
Theorem C15_partial : forall U ops sk sender i, noExtension [] ops ->
  match dbMessageKey sk sender i (krun U ops emptyKDB) with
  | Ok k => memKey sk sender i (memRun ops) = Some k
  | Err _ => memKey sk sender i (memRun ops) = None
  | Panic => False
  end.
Proof.
  intros U ops sk sender i H. apply dbMessageKey_mem. apply (sess_run U ops) with [].
  - apply sInv_empty.
  - intros k E. elim E. reflexivity.
  - exact H.
Qed.
(* And then extending a session s loses every new key, unless the connection's last inserted row happens
   to have the row id of s. *)
Theorem C15_extension_lost : forall U ops sk root chain send recv sid r d' sender i,
  let d := krun U ops emptyKDB in
  noExtension [] ops -> tmin (bySess sk) (kSess d) = Some (sid, r) -> kLast d <> sid ->
  addSession sk root chain send recv d = Ok d' -> is_ok (dbMessageKey sk sender i d) = false ->
  is_ok (dbMessageKey sk sender i d') = false.
Proof.
  intros U ops sk root chain send recv sid r d' sender i d NE TM NL A NR.
  assert (H : sInv d (memRun ops)).
  { apply (sess_run U ops) with []; [apply sInv_empty|intros k E; elim E; reflexivity|exact NE]. }
  unfold addSession in A. destruct (beq sk []); [discriminate|]. destruct (beq root []); [discriminate|]. destruct (beq chain []); [discriminate|].
  destruct (lenN send =? lenN recv) eqn:L; [|discriminate]. cbn [negb] in A. apply N.eqb_eq in L. rewrite TM in A.
  destruct (insKeys _ _ _ _ _ _) as [t l] eqn:IK in A. injection A as <-.
  assert (Et : t = fst (insKeys (kLast d) (srNum r) send recv (kKeys d) (kLast d))) by (cbn [kLast setSess kKeys] in IK; rewrite IK; reflexivity).
  unfold dbMessageKey in *. cbn [kSess setKeys setSess kKeys]. rewrite TM in NR.
  rewrite tmin_tupd; [|apply (si_ids _ _ H)|intros j a; unfold bySess; f_equal; destruct (beq (srKey a) sk); reflexivity].
  rewrite TM. destruct (negb (sqlInt i)); [reflexivity|].
  pose proof (insKeys_read (kLast d) (srNum r) send recv (kKeys d) (kLast d) (si_kids _ _ H) L sid i sender) as R. rewrite <- Et in R.
  unfold readKey in R. destruct (tmin (byKey sid i sender) (kKeys d)) as [[? ?]|]; [discriminate|].
  destruct (N.eqb_spec sid (kLast d)); [congruence|]. cbn [andb] in R. destruct (tmin (byKey sid i sender) t) as [[? ?]|]; [discriminate|reflexivity].
Qed.
Example C15_ex : let ops := [add1 x1 [str "k0"; str "k1"]; KNewConn; add1 x2 [str "a0"]; KDelMessageKey x1 true 0] in
  noExtension [] ops /\ memKey x1 true 1 (memRun ops) = Some (str "k1") /\ memKey x1 true 0 (memRun ops) = None /\
  dbMessageKey x1 true 1 (krun goUnicode ops emptyKDB) = Ok (str "k1") /\ dbMessageKey x1 false 0 (krun goUnicode ops emptyKDB) = Ok (str "k0").
Proof. vm_compute. repeat split; auto. intros [|[]]; discriminate. Qed.
Example C15_extension_ex : let d := krun goUnicode [add1 x1 [str "k0"; str "k1"]] emptyKDB in
  kLast d = 4 /\ (exists r, tmin (bySess x1) (kSess d) = Some (1, r)) /\ is_ok (addSession x1 rt ck [str "k2"] [str "k2"] d) = true.
Proof. vm_compute. split; [reflexivity|]. split; [eexists; reflexivity|reflexivity]. Qed.

(* GetSession: over all histories, also with extensions, the root key is the one first stored, the chain key the one stored last and the
   number of keys the sum. *)
Definition sessSpec (sk : bytes) (acc : option (bytes * bytes * N)) (o : kop) : option (bytes * bytes * N) :=
  match o with
  | KAddSession s root chain send recv =>
      if beq s sk && validAdd s root chain send recv
      then Some match acc with Some (root0, _, n) => (root0, chain, n + lenN send) | None => (root, chain, lenN send) end
      else acc
  | _ => acc
  end.
Lemma kexec_sess U o d d' : kexec U o d = Ok d' -> (forall sk root chain send recv, o <> KAddSession sk root chain send recv) -> kSess d' = kSess d.
Proof.
  intros E N. destruct o; cbn [kexec] in E; try (exfalso; eapply N; reflexivity);
    unfold dbSetState, dbDelMessageKey, dbAddSessionKey, dbDelPriv, addPrivateUID, addPrivateUIDReply, delPrivateUID, addPublicUID, addChainEntry in E.
  1: { destruct (tmin _ _) as [[? ?]|]; [|discriminate]. destruct (negb _); [discriminate|]. injection E as <-; reflexivity. }
  1: { destruct (beq _ _); [discriminate|]. destruct (negb _); [discriminate|]. destruct (thas _ _); injection E as <-; reflexivity. }
  all: repeat match type of E with (if ?b then _ else _) = _ => destruct b; [discriminate|] end; injection E as <-; reflexivity.
Qed.
Lemma kstep_session U sk o d : idsOk (kSess d) -> idsOk (kSess (kstep U d o)) /\ dbSession sk (kstep U d o) = sessSpec sk (dbSession sk d) o.
Proof.
  intros I. unfold kstep. destruct (kexec U o d) as [d'|x|] eqn:E.
  - destruct o as [s root chain send recv| | | | | | | | | | | ]; try (assert (Q : kSess d' = kSess d) by (apply (kexec_sess U _ _ _ E); intros; discriminate); unfold dbSession; rewrite Q; split; [exact I|reflexivity]).
    cbn [kexec] in E. cbn [sessSpec]. unfold addSession in E. unfold validAdd. destruct (beq s []); [discriminate E|]. destruct (beq root []); [discriminate E|]. destruct (beq chain []); [discriminate E|]. destruct (lenN send =? lenN recv); [|discriminate E]. cbn [negb andb] in *. rewrite andb_true_r.
    destruct (tmin (bySess s) (kSess d)) as [[sid r]|] eqn:TM; destruct (insKeys _ _ _ _ _ _) as [t l] in E; injection E as <-; unfold dbSession; cbn [setKeys setSess kSess].
    + split; [apply idsOk_tupd, I|]. destruct (beq s sk) eqn:B.
      * apply beq_spec in B; subst s. rewrite tmin_tupd; [|exact I|intros j a; unfold bySess; f_equal; destruct (beq (srKey a) sk); reflexivity]. rewrite TM. destruct (tmin_some _ _ _ TM) as [_ TS]. cbn [fst snd] in TS. rewrite TS. reflexivity.
      * replace (tmin (bySess sk) (tupd _ _ (kSess d))) with (tmin (bySess sk) (kSess d)); [reflexivity|]. rewrite tmin_tupd; [|exact I|intros j a; unfold bySess; destruct (beq (srKey a) s); reflexivity].
        destruct (tmin (bySess sk) (kSess d)) as [[i a]|] eqn:T2; [|reflexivity]. destruct (tmin_some _ _ _ T2) as [_ TS]. cbn [fst snd] in TS. unfold bySess in TS |- *. apply beq_spec in TS. rewrite TS. rewrite (beq_sym sk s), B. reflexivity.
    + split; [apply idsOk_tins, I|]. rewrite tmin_tins by exact I. destruct (beq s sk) eqn:B.
      * apply beq_spec in B; subst s. rewrite TM. unfold bySess. cbn [srKey]. rewrite beq_refl. reflexivity.
      * destruct (tmin (bySess sk) (kSess d)) as [[i a]|]; [reflexivity|]. unfold bySess. cbn [srKey]. rewrite B. reflexivity.
  - split; [exact I|]. destruct o as [s root chain send recv| | | | | | | | | | | ]; try reflexivity. cbn [kexec] in E. cbn [sessSpec]. unfold addSession in E. unfold validAdd. destruct (beq s []); [rewrite andb_false_r; reflexivity|]. destruct (beq root []); [rewrite andb_false_r; reflexivity|]. destruct (beq chain []); [rewrite andb_false_r; reflexivity|]. destruct (lenN send =? lenN recv); [|rewrite andb_false_r; reflexivity].
    cbn [negb] in E. destruct (tmin (bySess s) (kSess d)) as [[sid r]|]; destruct (insKeys _ _ _ _ _ _) as [t l] in E; discriminate E.
  - split; [exact I|]. destruct o as [s root chain send recv| | | | | | | | | | | ]; try reflexivity. cbn [kexec] in E. unfold addSession in E. destruct (beq s []); [discriminate E|]. destruct (beq root []); [discriminate E|]. destruct (beq chain []); [discriminate E|]. destruct (lenN send =? lenN recv); [|discriminate E].
    cbn [negb] in E. destruct (tmin (bySess s) (kSess d)) as [[sid r]|]; destruct (insKeys _ _ _ _ _ _) as [t l] in E; discriminate E.
Qed.
Theorem C15_session : forall U ops sk, dbSession sk (krun U ops emptyKDB) = fold_left (sessSpec sk) ops None.
Proof.
  intros U ops sk. assert (G : forall ops d, idsOk (kSess d) -> dbSession sk (krun U ops d) = fold_left (sessSpec sk) ops (dbSession sk d)).
  { clear ops. induction ops as [|o ops IH]; intros d I; [reflexivity|]. destruct (kstep_session U sk o d I) as [I1 E]. change (krun U (o :: ops) d) with (krun U ops (kstep U d o)). rewrite (IH _ I1), E. reflexivity. }
  apply G. apply idsOk_nil.
Qed.
Example C15_session_ex : dbSession x1 (krun goUnicode [add1 x1 [str "k0"; str "k1"]; KAddSession x1 (str "other") (str "c2") [str "k2"] [str "k2"]; add1 x2 []] emptyKDB) = Some (rt, str "c2", 3).
Proof. vm_compute. reflexivity. Qed.

(* ------------------------------------------------------------------ *)
(* C42: which UID message is used. *)
Theorem C42_public : forall U ops identity bound, bound < 2 ^ 63 -> (forall u pos, In (u, pos) (pubAdds ops) -> uidWf u) ->
  (exists u pos, getPublicUID identity bound (krun U ops emptyKDB) = Ok (Some (u, pos)) /\
     In (u, pos) (pubAdds ops) /\ uIdentity u = identity /\ pos <= bound /\
     forall u' pos', In (u', pos') (pubAdds ops) -> uIdentity u' = identity -> pos' <= bound -> pos' <= pos) \/
  (getPublicUID identity bound (krun U ops emptyKDB) = Ok None /\
     forall u' pos', In (u', pos') (pubAdds ops) -> uIdentity u' = identity -> bound < pos').
Proof.
  intros U ops identity bound B W. set (d := krun U ops emptyKDB).
  pose proof (pub_run U ops emptyKDB) as R. fold d in R. cbn [kPub emptyKDB map app] in R.
  unfold getPublicUID, sqlInt. destruct (N.ltb_spec bound (2 ^ 63)); [|lia]. cbn [negb].
  assert (IN : forall u pos, In (u, pos) (pubAdds ops) -> exists i, In (i, pubRowOf (u, pos)) (kPub d)).
  { intros u pos I. apply (in_map pubRowOf) in I. rewrite <- R in I. apply in_map_iff in I as ([i r] & E & I). cbn [snd] in E. subst r. exists i; exact I. }
  destruct (tmax _ _ _) as [[i r]|] eqn:T.
  - left. apply tmax_some in T as (I & P & M). cbn [snd] in *. apply (in_map snd) in I. rewrite R in I. cbn [snd] in I.
    apply in_map_iff in I as ([u pos] & <- & I). unfold pubRowOf in P. cbn [pbIdentity pbPos fst snd] in P. apply andb_prop in P as [P1 P2].
    apply beq_spec in P1. apply N.leb_le in P2. exists u, pos. cbn [pubRowOf pbMsg pbPos fst snd].
    rewrite newJSONUid_JSON by (eapply W; exact I). cbn [rbind]. repeat split; try assumption.
    intros u' pos' I' E' L'. destruct (IN u' pos' I') as [j J]. specialize (M _ J). cbn [snd pubRowOf pbIdentity pbPos fst] in M.
    apply M. rewrite E', beq_refl. apply N.leb_le in L'. rewrite L'. reflexivity.
  - right. split; [reflexivity|]. intros u' pos' I' E'. destruct (IN u' pos' I') as [j J]. pose proof (tmax_none _ _ _ T _ J) as P.
    cbn [snd pubRowOf pbIdentity pbPos fst] in P. rewrite E', beq_refl in P. cbn [andb] in P. apply N.leb_gt in P. exact P.
Qed.
Theorem C42_private : forall U C ops identity u rep, let live := fold_left privStep ops [] in (forall x, In x live -> uidWf x) ->
  getPrivateUID C identity (krun U ops emptyKDB) = Ok (u, rep) ->
  In u live /\ uIdentity u = identity /\ forall x, In x live -> uIdentity x = identity -> uMsgCount x <= uMsgCount u.
Proof.
  intros U C ops identity u rep live W G. pose proof (priv_run U ops emptyKDB [] (Forall2_nil _)) as R. fold live in R.
  set (d := krun U ops emptyKDB) in *. unfold getPrivateUID in G. destruct (tmax _ _ _) as [[i r]|] eqn:T; [|discriminate].
  apply tmax_some in T as (I & P & M). cbn [snd] in *. apply beq_spec in P.
  assert (F : forall x, In x (map snd (kPriv d)) -> exists y, In y live /\ privRel x y).
  { clear - R. induction R; intros z []; [subst; eexists; split; [left; reflexivity|assumption]|].
    destruct (IHR z H0) as (w & I & Q). exists w. split; [right; exact I|exact Q]. }
  assert (B : forall y, In y live -> exists x, In x (map snd (kPriv d)) /\ privRel x y).
  { clear - R. induction R; intros z []; [subst; eexists; split; [left; reflexivity|assumption]|].
    destruct (IHR z H0) as (w & I & Q). exists w. split; [right; exact I|exact Q]. }
  destruct (F r (in_map snd _ _ I)) as (y & Iy & Q1 & Q2 & Q3).
  rewrite Q3, newJSONUid_JSON in G by (apply W; exact Iy). cbn [rbind] in G. destruct (verifySelfSig C y); cbn [rbind] in G; try discriminate.
  assert (u = y). { destruct (beq (pvReply r) []); [congruence|]. destruct (newJSONReply (pvReply r)); cbn [rbind] in G; congruence. } subst y.
  split; [exact Iy|]. split; [congruence|]. intros x Ix Ex. destruct (B x Ix) as (z & Iz & Z1 & Z2 & Z3).
  apply in_map_iff in Iz as ([j z'] & Ej & Iz). cbn [snd] in Ej. subst z'. specialize (M _ Iz). cbn [snd] in M.
  rewrite Z1, Z2, Q2, Ex, beq_refl in M. apply M. reflexivity.
Qed.
(* an own identity is found as long as all of its messages carry a valid signature and none has a reply attached *)
Theorem C42_private_found : forall U C ops identity, let live := fold_left privStep ops [] in
  (forall x, In x live -> uidWf x /\ verifySelfSig C x = Ok tt) -> (exists x, In x live /\ uIdentity x = identity) ->
  (forall x y, ~ In (KAddPrivateUIDReply x y) ops) ->
  exists u, getPrivateUID C identity (krun U ops emptyKDB) = Ok (u, None).
Proof.
  intros U C ops identity live W [x [Ix Ex]] NR. pose proof (priv_run U ops emptyKDB [] (Forall2_nil _)) as R. fold live in R.
  assert (NRep : forall l d, (forall x y, ~ In (KAddPrivateUIDReply x y) l) -> Forall (fun r => pvReply (snd r) = []) (kPriv d) -> Forall (fun r => pvReply (snd r) = []) (kPriv (krun U l d))).
  { induction l as [|o l IH]; intros d0 N F; [exact F|]. cbn [krun fold_left]. apply IH; [intros a b I; apply (N a b); right; exact I|].
    unfold kstep. destruct (kexec U o d0) as [d'|e|] eqn:E; [|exact F|exact F].
    destruct o; try (rewrite (kexec_priv _ _ _ _ E ltac:(discriminate) ltac:(discriminate) ltac:(discriminate)); exact F).
    - cbn [kexec] in E. unfold addPrivateUID in E. destruct (negb _); [discriminate|]. injection E as <-. cbn [kPriv setPriv]. apply Forall_app. split; [exact F|]. repeat constructor.
    - elim (N u r). left. reflexivity.
    - cbn [kexec] in E. unfold delPrivateUID in E. injection E as <-. cbn [kPriv setPriv]. unfold tdel. apply Forall_forall. intros z Hz. apply filter_In in Hz as [Hz _].
      rewrite Forall_forall in F. apply F. exact Hz. }
  specialize (NRep ops emptyKDB NR (Forall_nil _)). set (d := krun U ops emptyKDB) in *. unfold getPrivateUID.
  assert (F : forall x, In x (map snd (kPriv d)) -> exists y, In y live /\ privRel x y).
  { clear - R. induction R; intros z []; [subst; eexists; split; [left; reflexivity|assumption]|].
    destruct (IHR z H0) as (w & I & Q). exists w. split; [right; exact I|exact Q]. }
  assert (B : forall y, In y live -> exists x, In x (map snd (kPriv d)) /\ privRel x y).
  { clear - R. induction R; intros z []; [subst; eexists; split; [left; reflexivity|assumption]|].
    destruct (IHR z H0) as (w & I & Q). exists w. split; [right; exact I|exact Q]. }
  destruct (tmax _ _ _) as [[i r]|] eqn:T.
  - apply tmax_some in T as (I & P & _). destruct (F r (in_map snd _ _ I)) as (y & Iy & Q1 & Q2 & Q3). destruct (W y Iy) as [Wy Sy].
    exists y. rewrite Q3, newJSONUid_JSON by exact Wy. cbn [rbind]. rewrite Sy. cbn [rbind].
    rewrite Forall_forall in NRep. pose proof (NRep _ I) as E0. cbn [snd] in E0. rewrite E0. reflexivity.
  - exfalso. destruct (B x Ix) as (z & Iz & Z1 & _). apply in_map_iff in Iz as ([j z'] & Ej & Iz). cbn [snd] in Ej. subst z'.
    pose proof (tmax_none _ _ _ T _ Iz) as P. cbn [snd] in P. rewrite Z1, Ex, beq_refl in P. discriminate.
Qed.
(* a self-signed UID message for the examples *)
Definition exUidBody (id : bytes) (count : N) (sig : bytes) : uidMsg :=
  mkUid (str "1.0") count 1000 0 [] [] id (mkKE DefaultCiphersuite (str "ED25519") [] (b64enc (edpub toy [1]))) [] None [] [] (str "strict") [] None [] [] sig [].
Definition exUid (id : bytes) (count : N) : uidMsg := exUidBody id count (b64enc (edsign toy [1] (contentJSON (exUidBody id count [])))).
Definition exOps : list kop :=
  [KAddPublicUID (exUid (str "ann@b.de") 1) 7; KAddPublicUID (exUid (str "bob@b.de") 0) 4; KAddPublicUID (exUid (str "ann@b.de") 0) 2;
   KAddPrivateUID (exUid (str "cat@b.de") 2); KAddPrivateUID (exUid (str "cat@b.de") 1)].
Example C42_ex : let d := krun goUnicode exOps emptyKDB in
  (exists u, getPublicUID (str "ann@b.de") 9 d = Ok (Some (u, 7)) /\ uMsgCount u = 1) /\
  (exists u, getPublicUID (str "ann@b.de") 6 d = Ok (Some (u, 2)) /\ uMsgCount u = 0) /\
  getPublicUID (str "ann@b.de") 1 d = Ok None /\
  (exists u, getPrivateUID toy (str "cat@b.de") d = Ok (u, None) /\ uMsgCount u = 2) /\
  map (verifySelfSig toy) (fold_left privStep exOps []) = [Ok tt; Ok tt].
Proof.
  vm_compute. split; [eexists; split; reflexivity|]. split; [eexists; split; reflexivity|]. split; [reflexivity|].
  split; [eexists; split; reflexivity|]. reflexivity.
Qed.
Lemma exUid_wf id n : n < 2 ^ 64 -> uidWf (exUid id n).
Proof. intros H. unfold uidWf, exUid, exUidBody. cbn [uMsgCount uNotAfter uNotBefore]. repeat split; lia. Qed.
Example C42_ex_wf : Forall (fun x => uidWf (fst x)) (pubAdds exOps) /\ Forall uidWf (fold_left privStep exOps []).
Proof.
  split.
  - change (pubAdds exOps) with [(exUid (str "ann@b.de") 1, 7); (exUid (str "bob@b.de") 0, 4); (exUid (str "ann@b.de") 0, 2)].
    repeat constructor; cbn [fst]; apply exUid_wf; reflexivity.
  - change (fold_left privStep exOps []) with [exUid (str "cat@b.de") 2; exUid (str "cat@b.de") 1]. repeat (apply Forall_cons; [apply exUid_wf; reflexivity|]). apply Forall_nil.
Qed.

(* ------------------------------------------------------------------ *)
(* C76: session states are read back as last written. *)
Theorem C76_state_last_write : forall U ops k, k <> [] -> dbGetState k (krun U ops emptyKDB) = Ok (lastState k None ops).
Proof.
  intros U ops k K. assert (B : beq k [] = false) by (apply beq_neq; exact K).
  pose proof (states_run U ops k emptyKDB None idsOk_nil eq_refl) as R. destruct (lastState k None ops) as [s|].
  - apply getState_read; assumption.
  - unfold dbGetState. rewrite B. unfold stRead in R. destruct (tmin _ _) as [[? ?]|]; [discriminate|reflexivity].
Qed.
Definition exKE (a : bytes) : keyEntry := mkKE DefaultCiphersuite fECDHE a a.
Definition exState (n : N) : state := mkState n 1 2 (exKE (str "t")) (exKE (str "p")) (Some (exKE (str "n"))) None (str "nym") true.
Example C76_ex : let ops := [KSetState (str "a") (exState 1); KSetState (str "b") (exState 2); KSetState (str "a") (exState 3); KSetState (str "a") (exState (2 ^ 63))] in
  lastState (str "a") None ops = Some (exState 3) /\ lastState (str "b") None ops = Some (exState 2) /\ lastState (str "c") None ops = None.
Proof. vm_compute. auto. Qed.

(* C77: session keys.  Full statement (false): for every history the database answers what was stored last.
   A key added again after its private half was deleted keeps reading as deleted. *)
Theorem C77_refuted : exists U ops h, h <> [] /\ skRead h (krun U ops emptyKDB) <> fold_left (memSKey h) ops None.
Proof.
  exists goUnicode, [KAddSessionKey (str "h") (str "j") (str "p") 1; KDelPriv (str "h"); KAddSessionKey (str "h") (str "j") (str "p") 1], (str "h").
  split; [discriminate|]. vm_compute. discriminate.
Qed.
Theorem C77_partial : forall U ops h, h <> [] -> addedOnce h false ops ->
  dbGetSessionKey h (krun U ops emptyKDB) = match fold_left (memSKey h) ops None with Some x => Ok x | None => Err "sql: no rows in result set" end.
Proof.
  intros U ops h HN A. pose proof (skeys_run U ops h HN emptyKDB false idsOk_nil (fun X => match X eq_refl with end) A) as R.
  change (skRead h emptyKDB) with (@None (bytes * bytes)) in R. rewrite <- R. unfold dbGetSessionKey, skRead.
  destruct (beq h []) eqn:B; [apply beq_spec in B; contradiction|]. destruct (tmin _ _) as [[? ?]|]; reflexivity.
Qed.
Example C77_ex : let ops := [KAddSessionKey (str "h") (str "j") (str "p") 1; KAddSessionKey (str "g") (str "j2") (str "q") 1; KDelPriv (str "h")] in
  addedOnce (str "h") false ops /\ dbGetSessionKey (str "h") (krun goUnicode ops emptyKDB) = Ok (str "j", []) /\
  dbGetSessionKey (str "g") (krun goUnicode ops emptyKDB) = Ok (str "j2", str "q").
Proof. vm_compute. auto. Qed.

Print Assumptions C15_refuted.
Print Assumptions C15_confusion_refuted.
Print Assumptions C15_partial.
Print Assumptions C15_session.
Print Assumptions C15_extension_lost.
Print Assumptions C42_public.
Print Assumptions C42_private.
Print Assumptions C42_private_found.
Print Assumptions C76_state_last_write.
Print Assumptions C77_refuted.
Print Assumptions C77_partial.
