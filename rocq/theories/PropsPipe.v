(* The text protocols between mutectrl and its helper programs: fetching (C128), the sender's identity (C129), the
   address of the peer (C130). *)
From Verif Require Import Base Base64Model Base64Proofs CodecModel CodecProofs JsonModel Maps IdentityModel IdentityProofs SqlModel MsgDBModel CryptoModel
  MixModel MixClientModel CtrlModel PipeModel PipeProofs.
From Verif Require Import StoreModel KeysModel KeysProofs MsgFormatModel HeaderModel HeaderProofs PropsHeader ProtoModel ProtoProofs ProtoFirst
  ConvModel ConvSteps ConvInv ConvProofs ConvSend ConvRecv ConvMain ConvEnabled ConvTrack ConvDyn ConvToy ConvExample ConvRun ConvStuck ConvCross.
Delimit Scope string_scope with string.
Local Open Scope N_scope.

(* ------------------------------------------------------------------ *)
(* C128.  What one fetch has to write: the messages before the first known one, each identifier followed by its message;
   then the identifiers older than the known one are forgotten. *)
Section Spec.
  Variables my c : bytes.
  Variable cache : list bytes.
  Definition isKnown (m : fmsg) : bool := existsb (beq (b64enc (fID m))) cache.
  Fixpoint writes (l : list fmsg) : list dop :=
    match l with
    | [] => []
    | m :: l' => if isKnown m then [DRemoveCache my c (b64enc (fID m))]
                 else DAddCache my c (b64enc (fID m)) :: DAddInQueue my c (fTime m) (b64enc (fMsg m)) :: writes l'
    end.
  (* the time of the newest message *)
  Definition newest (l : list fmsg) : Z := match l with m :: _ => if isKnown m then 0%Z else fTime m | [] => 0%Z end.
End Spec.
Fixpoint dall (U : Unicode) (l : list dop) (db : msgdb) : res msgdb :=
  match l with [] => Ok db | o :: l' => do db' <- dexec U o db; dall U l' db' end.
(* what the caller is told: an error if a write failed; otherwise the time of the newest message, unless muteproto ended
   with an error before a known message was found; then an error, except for "nothing found" which counts as no messages *)
Definition told (cache : list bytes) (fin : option bytes) (l : list fmsg) : option Z :=
  if existsb (isKnown cache) l then Some (newest cache l)
  else match fin with None => Some (newest cache l) | Some e => if nothing e then Some 0%Z else None end.

Lemma loop_writes U my c cache l : forall b nt db, exists n,
  dall U (firstn n (writes my c cache l)) db = Ok (fst (fetchLoop U my c cache (map seen l) b nt db)) /\
  match snd (fetchLoop U my c cache (map seen l) b nt db) with
  | Some t => n = List.length (writes my c cache l) /\ t = match nt with Some t' => t' | None => newest cache l end
  | None => (List.length (writes my c cache l) <= b)%nat -> is_ok (dall U (writes my c cache l) db) = false
  end.
Proof.
  induction l as [|m l IH]; intros b nt db.
  - exists 0%nat. cbn. destruct nt; auto.
  - cbn [map seen fetchLoop writes newest]. unfold isKnown. destruct (existsb (beq (b64enc (fID m))) cache) eqn:K.
    + destruct b as [|b]; [exists 0%nat; cbn; split; [reflexivity|lia]|].
      destruct (dexec U (DRemoveCache my c (b64enc (fID m))) db) as [db'|e|] eqn:D; cbn [fst snd].
      * exists 1%nat. cbn [firstn dall List.length]. rewrite D. cbn [rbind is_ok]. destruct nt; auto.
      * exists 0%nat. cbn [firstn dall List.length]. rewrite D. cbn [rbind is_ok]. auto.
      * exists 0%nat. cbn [firstn dall List.length]. rewrite D. cbn [rbind is_ok]. auto.
    + destruct b as [|[|b]].
      * exists 0%nat. cbn. split; [reflexivity|lia].
      * destruct (dexec U (DAddCache my c (b64enc (fID m))) db) as [db1|e|] eqn:D; cbn [fst snd].
        -- exists 1%nat. cbn [firstn dall List.length]. rewrite D. cbn [rbind is_ok]. split; [reflexivity|lia].
        -- exists 0%nat. cbn. split; [reflexivity|lia].
        -- exists 0%nat. cbn. split; [reflexivity|lia].
      * destruct (dexec U (DAddCache my c (b64enc (fID m))) db) as [db1|e|] eqn:D; cbn [fst snd].
        2,3: exists 0%nat; cbn [firstn dall List.length]; rewrite D; auto.
        destruct (dexec U (DAddInQueue my c (fTime m) (b64enc (fMsg m))) db1) as [db2|e|] eqn:D2; cbn [fst snd].
        2,3: exists 1%nat; cbn [firstn dall List.length]; rewrite D; cbn [rbind]; rewrite D2; auto.
        destruct (IH b (Some (match nt with Some t' => t' | None => fTime m end)) db2) as (n & A & B).
        exists (S (S n)). cbn [firstn dall List.length]. rewrite D. cbn [rbind]. rewrite D2. cbn [rbind]. split; [exact A|].
        destruct (snd _) as [t|].
        -- destruct B as [B1 B2]. split; [lia|]. rewrite B2. destruct nt; reflexivity.
        -- intros L. apply B. lia.
Qed.
Lemma loop_full U my c cache l db k r db' : (forall b, fetchLoop U my c cache (map seen l) (k + b) None db = (db', r)) ->
  match r with
  | Some t => dall U (writes my c cache l) db = Ok db' /\ t = newest cache l
  | None => is_ok (dall U (writes my c cache l) db) = false
  end.
Proof.
  intros H. specialize (H (List.length (writes my c cache l))). destruct (loop_writes U my c cache l (k + List.length (writes my c cache l)) None db) as (n & A & B).
  rewrite H in A, B. cbn [fst snd] in A, B. destruct r as [t|].
  - destruct B as [-> ->]. rewrite firstn_all in A. auto.
  - apply B. lia.
Qed.
Lemma knownIn_is cache l : knownIn cache l = existsb (isKnown cache) l. Proof. reflexivity. Qed.

(* whatever the order in which the two programs run and the bytes arrive: when the fetch has returned, everything was written (or a write
   failed), and the caller is told accordingly *)
Theorem C128_fetch_result : forall U my c cache fin cap l db s r, Forall okMsg l ->
  fsteps U my c cache fin cap (finit l db) s -> sMain s = CFin r ->
  if is_ok (dall U (writes my c cache l) db) then dall U (writes my c cache l) db = Ok (sDB s) /\ r = told cache fin l else r = None.
Proof.
  intros U my c cache fin cap l db s r O H E. pose proof (inv_steps U my c cache fin cap l db O s H) as I.
  destruct I; try congruence; try (exfalso; rewrite E in *; match goal with M : mainT _ _ _ _ _ _ _ _ _ _ _ _ |- _ => inversion M end).
  replace r with (answer cache fin l r') in * by congruence. rename H1 into EN. destruct EN as (k & EN). pose proof (loop_full _ _ _ _ _ _ _ _ _ EN) as F.
  destruct r' as [t|].
  - destruct F as [-> ->]. cbn [is_ok]. split; [reflexivity|]. unfold answer, told. rewrite knownIn_is. reflexivity.
  - rewrite F. reflexivity.
Qed.
(* at every moment (the program may be killed) a part of the writes is done, in their order *)
Theorem C128_fetch_interrupted : forall U my c cache fin cap l db s, Forall okMsg l ->
  fsteps U my c cache fin cap (finit l db) s -> exists n, dall U (firstn n (writes my c cache l)) db = Ok (sDB s).
Proof.
  intros U my c cache fin cap l db s O H. destruct (inv_db U my c cache fin l db s (inv_steps U my c cache fin cap l db O s H)) as [b <-].
  destruct (loop_writes U my c cache l b None db) as (n & A & _). exists n. exact A.
Qed.
(* the two programs never wait for each other *)
Theorem C128_no_deadlock : forall U my c cache fin cap l db s, Forall okMsg l -> 1 <= cap ->
  fsteps U my c cache fin cap (finit l db) s -> (exists r, sMain s = CFin r) \/ exists s', fstep U my c cache fin cap s s'.
Proof. intros U my c cache fin cap l db s O CAP H. exact (inv_progress U my c cache fin cap l db CAP s (inv_steps U my c cache fin cap l db O s H)). Qed.
(* the fetch returns: after a bounded number of steps nothing is left to do *)
Inductive fstepsN (U : Unicode) (my c : bytes) (cache : list bytes) (fin : option bytes) (cap : N) : N -> sys -> sys -> Prop :=
| fn_refl s : fstepsN U my c cache fin cap 0 s s
| fn_step n s1 s2 s3 : fstepsN U my c cache fin cap n s1 s2 -> fstep U my c cache fin cap s2 s3 -> fstepsN U my c cache fin cap (n + 1) s1 s3.
Lemma steps_weight U my c cache fin cap n s s' : fstepsN U my c cache fin cap n s s' -> nohold s -> nohold s' /\ weight s' + n <= weight s.
Proof.
  intros H N. induction H as [s|n s1 s2 s3 H IH S]; [split; [exact N|lia]|]. destruct (IH N) as [N2 L]. split; [eapply nohold_step; eauto|].
  pose proof (weight_step _ _ _ _ _ _ _ _ N2 S). lia.
Qed.
Theorem C128_fetch_ends : forall U my c cache fin cap l db n s, fstepsN U my c cache fin cap n (finit l db) s ->
  n <= 15 + fold_right (fun m k => 40 + 3 * lenN (b64enc (fMsg m)) + k) 0 l.
Proof.
  intros U my c cache fin cap l db n s H. destruct (steps_weight _ _ _ _ _ _ _ _ _ H I) as [_ L].
  assert (W : weight (finit l db) = 15 + fold_right (fun m k => 40 + 3 * lenN (b64enc (fMsg m)) + k) 0 l).
  { unfold weight, finit. cbn [sP sStat sCmd sPipe sHeld sMain wProto wMain lenN List.length]. change (lenN (@nil bytes)) with 0. change (lenN (@nil N)) with 0.
    assert (X : wLoop l = 12 + fold_right (fun m k => 40 + 3 * lenN (b64enc (fMsg m)) + k) 0 l).
    { clear. induction l as [|m l IH]; [reflexivity|]. cbn [wLoop fold_right]. rewrite IH. lia. }
    lia. }
  lia.
Qed.
Lemma fsteps_nohold U my c cache fin cap s s' : fsteps U my c cache fin cap s s' -> nohold s -> nohold s'.
Proof. intros H N. induction H as [|s1 s2 s3 H IH S]; [exact N|]. eapply nohold_step; [apply IH; exact N|exact S]. Qed.
(* ... and it can return: from every state some execution does *)
Theorem C128_fetch_returns : forall U my c cache fin cap l db s, Forall okMsg l -> 1 <= cap -> fsteps U my c cache fin cap (finit l db) s ->
  exists s' r, fsteps U my c cache fin cap (finit l db) s' /\ sMain s' = CFin r /\ exists n, fstepsN U my c cache fin cap n s s'.
Proof.
  intros U my c cache fin cap l db s O CAP H. assert (N : nohold s).
  { eapply fsteps_nohold; [exact H|exact I]. }
  remember (weight s) as w eqn:W. revert s H N W. induction w as [w IH] using (well_founded_induction N.lt_wf_0). intros s H N W.
  destruct (C128_no_deadlock U my c cache fin cap l db s O CAP H) as [[r F]|[s' S]].
  - exists s, r. split; [exact H|]. split; [exact F|]. exists 0. constructor.
  - pose proof (weight_step _ _ _ _ _ _ _ _ N S) as L. destruct (IH (weight s') ltac:(lia) s') as (s2 & r & A & B & n & D); auto.
    + econstructor; eauto.
    + eapply nohold_step; eauto.
    + exists s2, r. split; [exact A|]. split; [exact B|]. clear - D S. exists (n + 1). induction D as [x|n a b e D IH T].
      * eapply (fn_step _ _ _ _ _ _ 0); [constructor|exact S].
      * econstructor; [apply IH; exact S|exact T].
Qed.
(* two new messages, one of them empty, and an old one; pipes of one byte *)
Definition exF : list fmsg := [mkF [1; 2] [104; 105] 12%Z; mkF [3] [] 11%Z; mkF [4] [5] 10%Z].
Example C128_ex : Forall okMsg exF /\ told [b64enc [4]] None exF = Some 12%Z /\ List.length (writes [] [] [b64enc [4]] exF) = 5%nat /\
  exists s r, fsteps goUnicode [] [] [b64enc [4]] None 1 (finit exF emptyDB) s /\ sMain s = CFin r.
Proof.
  assert (O : Forall okMsg exF).
  { repeat constructor; cbn; try lia; discriminate. }
  split; [exact O|]. split; [reflexivity|]. split; [reflexivity|].
  destruct (C128_fetch_returns goUnicode [] [] [b64enc [4]] None 1 exF emptyDB _ O ltac:(lia) (fs_refl _ _ _ _ _ _ _)) as (s & r & A & B & _). eauto.
Qed.

(* ------------------------------------------------------------------ *)
(* C129.  The identity that mutecrypt reports is the one that the in-queue is processed with. *)
Definition plainLine (id : bytes) : Prop := ~ In 9 id /\ ~ In 10 id /\ last id 0 <> 13.
Lemma chop_cr_id l : last l 0 <> 13 -> chop_cr l = l.
Proof.
  intros H. unfold chop_cr. destruct (rev l) as [|x r] eqn:E; [reflexivity|]. assert (L : last l 0 = x).
  { rewrite <- (rev_involutive l), E. cbn [rev]. apply last_last. }
  rewrite L in H. destruct x as [|p]; [reflexivity|]. destruct (N.eq_dec (N.pos p) 13) as [Q|Q]; [contradiction|].
  repeat (destruct p as [p|p|]; try reflexivity; try (exfalso; apply Q; reflexivity)).
Qed.
Lemma last_app2 (a b : bytes) : b <> [] -> last (a ++ b) 0 = last b 0.
Proof.
  intros N. destruct (exists_last N) as (s & d & ->). rewrite app_assoc, !last_last. reflexivity.
Qed.
Lemma first_line s r : ~ In 10 s -> s <> [] -> scanLine (s ++ 10 :: r) = Some (chop_cr s).
Proof.
  intros N E. unfold scanLine. destruct (s ++ 10 :: r) as [|x y] eqn:Q; [destruct s; discriminate Q|]. rewrite <- Q. rewrite cutOn_app by exact N. reflexivity.
Qed.
Definition senderPre : bytes := str "SENDERIDENTITY:" ++ [9].
Lemma decryptStatus_line id sig : exists r, decryptStatus id sig = (senderPre ++ id) ++ 10 :: r.
Proof. eexists. unfold decryptStatus, senderPre. rewrite <- !app_assoc. cbn [app]. reflexivity. Qed.
Lemma pre_nonl : ~ In 10 senderPre. Proof. notab. Qed.
Lemma parseSender_plain id sig : plainLine id -> parseSender (decryptStatus id sig) = Ok id.
Proof.
  intros (A & B & D). destruct (decryptStatus_line id sig) as [r ->]. unfold parseSender. rewrite first_line.
  - assert (L : last (senderPre ++ id) 0 <> 13).
    { destruct id as [|x y]; [rewrite app_nil_r; vm_compute; discriminate|]. rewrite last_app2; [exact D|discriminate]. }
    rewrite chop_cr_id by exact L. unfold senderPre. rewrite <- app_assoc. rewrite fieldOf_line; [reflexivity|notab|exact A].
  - intros I. apply in_app_or in I. destruct I as [I|I]; [exact (pre_nonl I)|exact (B I)].
  - intros E. apply app_eq_nil in E. destruct E as [E _]. discriminate E.
Qed.
Lemma cutOn_split s : In 10 s -> exists a b, s = a ++ 10 :: b /\ ~ In 10 a.
Proof.
  induction s as [|x s IH]; intros H; [destruct H|]. destruct (N.eq_dec x 10) as [->|N].
  - exists [], s. split; [reflexivity|intros []].
  - destruct H as [H|H]; [contradiction|]. destruct (IH H) as (a & b & -> & D). exists (x :: a), b. split; [reflexivity|]. intros [Q|Q]; [contradiction|exact (D Q)].
Qed.
Lemma chop_cr_len l : lenN (chop_cr l) <= lenN l.
Proof.
  unfold chop_cr. destruct (rev l) as [|x r] eqn:E; [lia|]. assert (L : lenN l = 1 + lenN r). { rewrite <- (rev_involutive l), E. cbn [rev]. rewrite lenN_app. unfold lenN at 1. rewrite rev_length. fold (lenN r). change (lenN [x]) with 1. lia. }
  destruct x as [|p]; [lia|]. assert (R : lenN (rev r) = lenN r) by (unfold lenN; rewrite rev_length; reflexivity).
  repeat (destruct p as [p|p|]; try lia).
Qed.
(* exactly these identities arrive unchanged *)
Theorem C129_sender_partial : forall id sig, parseSender (decryptStatus id sig) = Ok id <-> plainLine id.
Proof.
  intros id sig. split; [|apply parseSender_plain]. intros H. unfold plainLine.
  assert (NL : ~ In 10 id).
  { intros I. destruct (cutOn_split id I) as (a & b & E & N). destruct (decryptStatus_line id sig) as [r L]. rewrite L in H. unfold parseSender in H.
    rewrite E in H. rewrite app_assoc, <- app_assoc in H. cbn [app] in H. rewrite first_line in H.
    - destruct (fieldOf (str "SENDERIDENTITY:") (chop_cr (senderPre ++ a))) as [v|] eqn:F; [|discriminate H]. cbn [fromOpt] in H.
      assert (V : v = id) by congruence. destruct (fieldOf_inv _ _ _ F) as [Q _]. pose proof (chop_cr_len (senderPre ++ a)) as Z. rewrite Q, V, E in Z.
      unfold senderPre in Z. repeat rewrite ?lenN_app, ?lenN_cons in Z. lia.
    - intros Q. apply in_app_or in Q. destruct Q as [Q|Q]; [exact (pre_nonl Q)|exact (N Q)].
    - discriminate. }
  destruct (decryptStatus_line id sig) as [r L]. rewrite L in H. unfold parseSender in H. rewrite first_line in H.
  2:{ intros Q. apply in_app_or in Q. destruct Q as [Q|Q]; [exact (pre_nonl Q)|exact (NL Q)]. }
  2:{ discriminate. }
  destruct (fieldOf (str "SENDERIDENTITY:") (chop_cr (senderPre ++ id))) as [v|] eqn:F; [|discriminate H]. cbn [fromOpt] in H.
  assert (V : v = id) by congruence. destruct (fieldOf_inv _ _ _ F) as (Q & _ & T). subst v. split; [exact T|]. split; [exact NL|].
  intros LC. assert (NE : id <> []) by (intros ->; discriminate LC). destruct (exists_last NE) as (s & d & E). rewrite E, last_last in LC. subst d.
  assert (Z : lenN (chop_cr (senderPre ++ id)) < lenN (senderPre ++ id)).
  { rewrite E, app_assoc. rewrite chop_cr_snoc. rewrite (lenN_app _ [13]). change (lenN [13]) with 1. lia. }
  rewrite Q in Z. unfold senderPre in Z. rewrite <- app_assoc in Z. lia.
Qed.
(* identities with a line break or a tab in the domain count as mapped; one of them is taken for another identity, the other one stops the in-queue *)
Definition badNL : bytes := str "bob@mute.berlin" ++ [10; 120].
Definition badTab : bytes := str "bob@mute" ++ [9; 120].
Theorem C129_refuted : exists id id' bad, isMapped goUnicode id = true /\ isMapped goUnicode id' = true /\ id <> id' /\
  (forall sig, parseSender (decryptStatus id sig) = Ok id') /\
  isMapped goUnicode bad = true /\ (forall sig, exists e, parseSender (decryptStatus bad sig) = Err e).
Proof.
  exists badNL, (str "bob@mute.berlin"), badTab. split; [vm_compute; reflexivity|]. split; [vm_compute; reflexivity|]. split; [vm_compute; discriminate|].
  split; [intros sig; vm_compute; reflexivity|]. split; [vm_compute; reflexivity|]. intros sig. eexists. vm_compute. reflexivity.
Qed.
Example C129_ex : plainLine (str "bob@mute.berlin") /\ parseSender (decryptStatus (str "bob@mute.berlin") (str "sig")) = Ok (str "bob@mute.berlin").
Proof. split; [split; [notab|split; [notab|vm_compute; discriminate]]|vm_compute; reflexivity]. Qed.

(* ------------------------------------------------------------------ *)
(* C130.  A peer chooses the address to which its messages are answered; whatever it chooses, answering it is possible. *)
Lemma parseNym_ok a : a <> [] -> ~ In 9 a -> isSpace (last a 0) = false -> parseNym (encryptStatus a) = Ok a.
Proof.
  intros NE T S. unfold parseNym, encryptStatus. destruct (exists_last NE) as (s & d & E). rewrite E, last_last in S.
  assert (X : trimSpace (str "NYMADDRESS:" ++ [9] ++ a ++ [10]) = str "NYMADDRESS:" ++ [9] ++ a).
  { rewrite E. replace (str "NYMADDRESS:" ++ [9] ++ (s ++ [d]) ++ [10]) with (((str "NYMADDRESS:" ++ [9] ++ s) ++ [d]) ++ [10]) by (rewrite <- !app_assoc; reflexivity).
    unfold trimSpace. change (str "NYMADDRESS:") with (78 :: tl (str "NYMADDRESS:")). cbn [app]. rewrite trimLeft_head by reflexivity.
    cbn [rev]. rewrite !rev_app_distr. cbn [rev app]. change (trimLeftSpace (10 :: ?x)) with (trimLeftSpace x). rewrite trimLeft_head by exact S.
    cbn [rev]. rewrite !rev_app_distr, !rev_involutive. cbn [rev app]. reflexivity. }
  rewrite X, fieldOf_line; [reflexivity|notab|exact T].
Qed.
Definition status_unreadable (a : bytes) : Prop := exists e, parseNym (encryptStatus a) = Err e.
Lemma parseNym_b64 b : b <> [] -> parseNym (encryptStatus (b64enc b)) = Ok (b64enc b).
Proof.
  intros N. assert (NE : b64enc b <> []).
  { intros E. assert (X : lenN (b64enc b) = 0) by (rewrite E; reflexivity). rewrite lenN_b64enc in X. destruct b as [|a r]; [exact (N eq_refl)|]. rewrite lenN_cons in X.
    pose proof (N.div_str_pos (1 + lenN r + 2) 3). lia. }
  apply parseNym_ok; [exact NE|apply printable_notab; apply b64enc_printable|].
  pose proof (printable_nospace _ (b64enc_printable b)) as F. rewrite Forall_forall in F. apply F. destruct (exists_last NE) as (s & d & ->). rewrite last_last. apply in_or_app. right. now left.
Qed.

Section Conv.
  Variable C : Crypto.
  Variable P : bool -> party.
  (* encrypting in an existing conversation *)
  Lemma encrypt_nym p a r st nym w ss : sendOk C P p a r -> eStatus a <> StatusReset -> eStatus a <> StatusError ->
    mget (stateKey C P p) (states st) = Some ss -> run (encrypt C a r) st = (Ok nym, w) -> nym = stNym ss.
  Proof.
    intros SO NR NE M E. unfold run in E. destruct (encrypt_ok _ _ _ _ _ _ E) as (ss' & w1 & w2 & hp & sk & mk & body & fk & tk & EO).
    pose proof EO as [O1 _ _ _ _ _ _ _ _].
    destruct (sk_from _ _ _ _ _ SO) as [[F1 [ks F2]] F3]. destruct (sk_to _ _ _ _ _ SO) as [T1 [ks' T2]].
    unfold encState in O1. rewrite (pubKey_cons _ _ _ F2), lift_bind, initDHKey_pub32, lift_bind, (pubKey_cons _ _ _ T2), lift_bind, initDHKey_pub32, lift_bind in O1. cbv zeta in O1.
    apply N.eqb_neq in NR, NE. rewrite NR in O1. apply mbind_ok in O1 as (o & v & Q & O1).
    match type of Q with ?x = _ => change x with ((Ok (mget (stateKey C P p) (states st)), mkWorld st [] []) : res (option state) * world) in Q end.
    apply okpair in Q as [<- <-]. rewrite M in O1. rewrite NE in O1.
    destruct (stNextSender ss); [apply okpair in O1 as [O1 _]; apply pair_inj in O1 as [O1 _]; symmetry; exact O1|].
    destruct (rCoin r); [|apply okpair in O1 as [O1 _]; apply pair_inj in O1 as [O1 _]; symmetry; exact O1].
    apply mbind_ok in O1 as ([k s'] & v & _ & O1). apply okpair in O1 as [O1 _]. apply pair_inj in O1 as [O1 _]. symmetry. exact O1.
  Qed.
  (* the answer to a first message goes to the address that the peer wrote into it *)
  Theorem reply_address p c0 c1 c2 a r m ra a2 r2 nym w : start C P c0 -> sends C P p a r m c0 c1 -> gets C P (negb p) ra m c1 c2 -> noColl C P (cUsed c2) ->
    sendOk C P (negb p) a2 r2 -> eStatus a2 <> StatusReset -> eStatus a2 <> StatusError -> run (encrypt C a2 r2) (cStore c2 (negb p)) = (Ok nym, w) -> nym = eNym a.
  Proof.
    intros ST S G NC SO NR NE E. destruct (first_exchange_nym C P p c0 c1 c2 a r m ra ST S G NC) as (kb & ny & _ & _ & _ & SF).
    exact (encrypt_nym (negb p) a2 r2 _ nym w _ SO NR NE SF E).
  Qed.
End Conv.

(* the address that the user's program gets from the status output *)
Theorem C130_reply_address : forall C P p c0 c1 c2 a r m ra a2 r2 nym w,
  start C P c0 -> sends C P p a r m c0 c1 -> gets C P (negb p) ra m c1 c2 -> noColl C P (cUsed c2) ->
  sendOk C P (negb p) a2 r2 -> eStatus a2 <> StatusReset -> eStatus a2 <> StatusError ->
  run (encrypt C a2 r2) (cStore c2 (negb p)) = (Ok nym, w) -> nym = eNym a.
Proof. exact reply_address. Qed.
(* base64 text, which util.NewNymAddress produces, passes the status line *)
Theorem C130_address_partial : forall C P p c0 c1 c2 a r m ra a2 r2 nym w b,
  start C P c0 -> sends C P p a r m c0 c1 -> gets C P (negb p) ra m c1 c2 -> noColl C P (cUsed c2) ->
  sendOk C P (negb p) a2 r2 -> eStatus a2 <> StatusReset -> eStatus a2 <> StatusError ->
  run (encrypt C a2 r2) (cStore c2 (negb p)) = (Ok nym, w) -> eNym a = b64enc b -> b <> [] ->
  parseNym (encryptStatus nym) = Ok (b64enc b).
Proof. intros. rewrite (reply_address C P p c0 c1 c2 a r m ra a2 r2 nym w) by assumption. match goal with E : eNym a = _ |- _ => rewrite E end. apply parseNym_b64. assumption. Qed.

From Verif Require Import SqlProofs MsgDBProofs PropsMsgDB PropsCtrl.
(* what mutectrl takes from mutecrypt (ctrlengine/msg.go:88-103): the ciphertext and the address, or an error *)
Definition encEvent (out nym : bytes) : option (bytes * bytes) := match parseNym (encryptStatus nym) with Ok a => Some (out, a) | _ => None end.
(* the first message that waits cannot be encrypted; nothing is in the out-queue *)
Definition waitsFirst (U : Unicode) (my : bytes) (db : msgdb) : Prop := exists u i peer text sign a b,
  mapped U my = true /\ qNymUID my db = Ok u /\ (forall j o, In (j, o) (dbOut db) -> oSelf o <> u) /\
  getUndelivered U my db = Ok (Some (i, peer, text, sign, a, b)) /\ peer <> [].
Definition badAddress (e : sendEvs) : Prop := exists out nym rest, status_unreadable nym /\ seEnc e = encEvent out nym :: rest.
Theorem C130_blocked : forall U my es L db, waitsFirst U my db -> Forall badAddress es -> orun U (map (ASend my) es) (L, db) = (L, db).
Proof.
  intros U my. induction es as [|e es IH]; intros L db Q F; [reflexivity|]. inversion_clear F as [|? ? B F']. unfold orun. cbn [map fold_left].
  assert (S : ostep U (L, db) (ASend my e) = (L, db)); [|rewrite S; exact (IH L db Q F')].
  destruct Q as (u & i & peer & text & sign & x & y & M & QU & NO & GU & NE). destruct B as (out & nym & rest & (er & UN) & SE).
  cbn [ostep fst snd]. unfold msgSend. cbn [dexec]. unfold clearResendOutQueue. rewrite M, QU. cbn [need rbind].
  rewrite tupd_none. 2:{ intros j o I. apply andb_false_intro1, N.eqb_neq, (NO j o I). }
  replace (withOut (dbOut db) db) with db by (destruct db; reflexivity).
  assert (PO : procOut U my (seOld e) db = ([], db, true)).
  { assert (G : getOutQueue U my db = Ok None).
    { unfold getOutQueue. rewrite M, QU. cbn [need rbind]. rewrite tmin_none_intro; [reflexivity|]. intros [j o] I. cbn [fst snd]. apply andb_false_intro1, N.eqb_neq, (NO j o I). }
    destruct (seOld e); cbn [procOut]; rewrite G; reflexivity. }
  rewrite PO. cbn [negb]. rewrite SE. cbn [encLoop]. rewrite GU. destruct peer as [|z peer]; [contradiction NE; reflexivity|]. cbn [isNil]. unfold encEvent. rewrite UN. cbn [negb]. rewrite app_nil_r. reflexivity.
Qed.
(* A peer whose first message names no address: every answer to it is refused by the user's own program, and no message of
   this user is sent any more. *)
Definition evilArgs : encArgs := mkEnc (cxId true) (cxUid false) [] (repeat 67 204) None hello 0 0 0.
Lemma evil_sendOk n coin : sendOk toyI cxP true evilArgs (cxRnd n (n + 1) coin).
Proof.
  destruct (cx_sendOk true hello 0 n (n + 1) coin) as [A1 A2 A3 A4 A5 A6 A7 A8 A9 B1 B2 B3 B4 B5 B6]; [apply wfbb_spec; reflexivity|lia|].
  constructor; try assumption. constructor.
Qed.
Lemma evil_writable n coin : writable toyI evilArgs (cxRnd n (n + 1) coin).
Proof.
  destruct (cx_writable true hello 0 n (n + 1) coin) as [A1 A2 A3 A4 A5 A6 A7]; [vm_compute; discriminate|lia|].
  constructor; try assumption. apply unescaped_dec. reflexivity.
Qed.
Definition exWait : msgdb := snd (orun goUnicode (map AUser exUsers ++ [AUser (DAddMessage exA exC 0 true (str "hi") false 0 0)]) ([], emptyDB)).
Theorem C130_refuted : exists c0 c1 c2 a r m ra,
  start toyI cxP c0 /\ sends toyI cxP true a r m c0 c1 /\ gets toyI cxP false ra m c1 c2 /\
  (exists a2 r2 nym w, sendOk toyI cxP false a2 r2 /\ eStatus a2 = 0 /\ run (encrypt toyI a2 r2) (cStore c2 false) = (Ok nym, w)) /\
  (forall a2 r2 nym w, sendOk toyI cxP false a2 r2 -> eStatus a2 <> StatusReset -> eStatus a2 <> StatusError ->
     run (encrypt toyI a2 r2) (cStore c2 false) = (Ok nym, w) -> status_unreadable nym /\
     forall es L, Forall (fun e => exists out rest, seEnc e = encEvent out nym :: rest) es ->
       orun goUnicode (map (ASend exA) es) (L, exWait) = (L, exWait)).
Proof.
  destruct (cx_send_gen evilArgs 5 cxStart true false) as (m0 & c1 & S0 & A1 & N1 & N1'); [apply evil_sendOk|apply evil_writable|lia|exact cxAt_start|].
  change (cNet cxStart true) with (@nil ConvModel.sent) in N1. cbn [app] in N1.
  destruct (cx_get (5 + 2) c1 false m0 []) as (c2 & G0 & A2 & N2 & N2'); [lia|exact A1|exact N1|].
  destruct (cx_send 8 c2 false false) as (m1 & c3 & S1 & _); [lia|exact A2|].
  exists cxStart, c1, c2, evilArgs, (cxRnd 5 (5 + 1) false), m0, (cxRa false (5 + 2)).
  split; [exact cx_start|]. split; [exact S0|]. split; [exact G0|]. split.
  - destruct S1 as (SO & _ & _ & nym & w & E & _). exists (cxArgs false hello 0), (cxRnd 8 (8 + 1) false), nym, w. split; [exact SO|]. split; [reflexivity|exact E].
  - intros a2 r2 nym w SO NR NE E.
    assert (Z : nym = []) by exact (reply_address toyI cxP true cxStart c1 c2 evilArgs _ m0 _ a2 r2 nym w cx_start S0 G0 (toyI_noColl _ _) SO NR NE E). subst nym.
    assert (UN : status_unreadable []) by (eexists; vm_compute; reflexivity). split; [exact UN|].
    intros es L F. apply C130_blocked.
    + exists 1. eexists _, _, _, _, _, _. split; [vm_compute; reflexivity|]. split; [vm_compute; reflexivity|]. split; [|split; [vm_compute; reflexivity|discriminate]].
      intros j o I. vm_compute in I. destruct I.
    + eapply Forall_impl; [|exact F]. intros e (out & rest & Q). exists out, [], rest. split; [exact UN|exact Q].
Qed.
Print Assumptions C128_fetch_result.
Print Assumptions C128_fetch_interrupted.
Print Assumptions C128_no_deadlock.
Print Assumptions C128_fetch_ends.
Print Assumptions C128_fetch_returns.
Print Assumptions C129_sender_partial.
Print Assumptions C129_refuted.
Print Assumptions C130_reply_address.
Print Assumptions C130_address_partial.
Print Assumptions C130_blocked.
Print Assumptions C130_refuted.
