(* The passphrase of both databases, and what mutecrypt and muteproto get of the secrets of mutectrl: C195. *)
From Verif Require Import Base Base64Model Base64Proofs CodecModel CodecProofs CryptoModel Maps KeyfileModel PropsKeyfile ScanModel ScanProofs PropsPassphrase MsgDBModel MixClientModel PipeModel ConfigModel PropsConfig PrepareModel PropsPrepare PropsLogin HandModel.
From Verif Require Import ScanModel.
Delimit Scope string_scope with string.
Local Open Scope N_scope.

(* what mutecrypt gets of a text: it is cut at the first line break, and one CR at its end is dropped *)
Inductive seen : bytes -> bytes -> Prop :=
| seen_all a : isLine a -> seen a a
| seen_cr a : ~ In 10 a -> seen (a ++ [13]) a
| seen_line a b : isLine a -> seen (a ++ 10 :: b) a
| seen_crlf a b : ~ In 10 a -> seen (a ++ 13 :: 10 :: b) a.

Lemma chop_13 a : chop_cr (a ++ [13]) = a.
Proof. unfold chop_cr. rewrite rev_app_distr. cbn [rev app]. apply rev_involutive. Qed.
Lemma cr_dec (a : bytes) : (exists b, a = b ++ [13]) \/ forall b, a <> b ++ [13].
Proof.
  destruct (rev a) as [|x r] eqn:E.
  - right. intros b ->. rewrite rev_app_distr in E. discriminate E.
  - assert (L : a = rev r ++ [x]) by (rewrite <- (rev_involutive a), E; reflexivity). destruct (N.eq_dec x 13) as [->|NE]; [left; exists (rev r); exact L|]. right. intros b Q. rewrite Q in L. apply app_inj_tail in L as [_ L]. congruence.
Qed.
Lemma hand_read pieces : fits (concat pieces) -> exists mem, askOpen pieces = Ok (line 0 (concat pieces), mem).
Proof. intros F. destruct (readPass_next _ _ (sane_new pieces) F) as (p0 & s0 & r0 & E0 & R0 & H0 & F0 & D0 & T0). unfold askOpen. rewrite R0. cbn [rbind]. rewrite D0. eexists. reflexivity. Qed.
Lemma seen_first p q : seen p q -> line 0 p = q.
Proof.
  intros H. unfold line. rewrite linesOf_cut. destruct H as [a [N1 N2]|a N1|a b [N1 N2]|a b N1].
  - rewrite (no10 a N1). destruct a as [|x a]; [reflexivity|]. cbn [isNil nth]. apply noCR, N2.
  - rewrite no10; [|intros I; apply in_app_or in I as [I|[I|[]]]; [exact (N1 I)|discriminate I]]. destruct (a ++ [13]) as [|x l] eqn:E; [destruct a; discriminate E|]. cbn [isNil nth]. rewrite <- E. apply chop_13.
  - rewrite (cutOn_line a b (no10 a N1)). cbn [nth]. apply noCR, N2.
  - change (a ++ 13 :: 10 :: b) with (a ++ [13] ++ 10 :: b). rewrite app_assoc. rewrite cutOn_line; [cbn [nth]; apply chop_13|]. apply no10. intros I. apply in_app_or in I as [I|[I|[]]]; [exact (N1 I)|discriminate I].
Qed.
Lemma split10 (p : bytes) : ~ In 10 p \/ exists a b, p = a ++ 10 :: b /\ ~ In 10 a.
Proof.
  induction p as [|c p IH]; [left; intros []|]. destruct (N.eq_dec c 10) as [->|NE]; [right; exists [], p; split; [reflexivity|intros []]|].
  destruct IH as [N0|(a & b & -> & N0)]; [left; intros [Q|Q]; [congruence|exact (N0 Q)]|]. right. exists (c :: a), b. split; [reflexivity|]. intros [Q|Q]; [congruence|exact (N0 Q)].
Qed.
Lemma seen_total p : exists q, seen p q.
Proof.
  destruct (split10 p) as [N0|(a & b & -> & N0)].
  - destruct (cr_dec p) as [[q ->]|N2]; [|exists p; constructor; split; assumption]. exists q. constructor. intros I. apply N0, in_or_app. left. exact I.
  - destruct (cr_dec a) as [[q ->]|N2]; [|exists a; constructor; split; assumption]. exists q. rewrite <- app_assoc. cbn [app]. constructor. intros I. apply N0, in_or_app. left. exact I.
Qed.
(* What is handed over, for all texts that fit into the pipe. *)
Theorem C195_seen : forall cut p q, concat (cut p) = p -> lenN p <= 65534 -> (handed cut p = Some (Ok q) <-> seen p q).
Proof.
  intros cut p q CU L. assert (F : fits (concat (cut p))) by (rewrite CU; apply fits_short, L). destruct (hand_read (cut p) F) as [mem A]. rewrite CU in A.
  assert (E : handed cut p = Some (Ok (line 0 p))) by (unfold handed; destruct (N.ltb_spec 65536 (lenN p)); [lia|]; rewrite A; reflexivity). rewrite E. split.
  - intros Q. destruct (seen_total p) as [q' S']. pose proof (seen_first _ _ S') as LQ. congruence.
  - intros S'. rewrite (seen_first _ _ S'). reflexivity.
Qed.
Corollary C195_same : forall cut p, concat (cut p) = p -> lenN p <= 65534 -> (handed cut p = Some (Ok p) <-> isLine p).
Proof.
  intros cut p CU L. rewrite (C195_seen cut p p CU L). split; [|apply seen_all].
  intros H. remember p as q eqn:E in H at 2. destruct H as [a I|a N1|a b I|a b N1]; [exact I| | |]; exfalso; apply (f_equal (@lenN N)) in E; rewrite lenN_app, ?lenN_cons in E; lia.
Qed.
(* a passphrase that does not fit into the pipe blocks the command *)
Theorem C195_blocks : forall cut p, 65536 < lenN p <-> handed cut p = None.
Proof. intros cut p. unfold handed. destruct (N.ltb_spec 65536 (lenN p)); split; try congruence; lia. Qed.

(* ---------------- the private key for muteproto ---------------- *)
Lemma b64_line x : isLine (b64enc x).
Proof.
  pose proof (b64enc_no_nl x) as F. rewrite forallb_forall in F. split.
  - intros I. specialize (F _ I). discriminate F.
  - intros b E. assert (I : In 13 (b64enc x)) by (rewrite E; apply in_or_app; right; left; reflexivity). specialize (F _ I). discriminate F.
Qed.
Theorem C195_privkey : forall cut key, (forall x, concat (cut x) = x) -> wfb key -> lenN key = 64 -> fetchKey cut (b64enc key) = Some (Ok key).
Proof.
  intros cut key CU W L. assert (LE : lenN (b64enc key) <= 65534) by (rewrite lenN_b64enc, L; vm_compute; discriminate). unfold fetchKey. rewrite (proj2 (C195_same cut _ (CU _) LE) (b64_line key)). cbn [rbind]. rewrite (b64dec_enc key W). rewrite takeN_app by exact L. reflexivity.
Qed.
Example C195_privkey_ex : let key := map N.of_nat (seq 100 64) in wfb key /\ lenN key = 64 /\ fetchKey (fun x => [x]) (b64enc key) = Some (Ok key).
Proof.
  cbv zeta. assert (W : wfb (map N.of_nat (seq 100 64))) by (apply Forall_forall; intros x I; apply in_map_iff in I as (n & <- & J); apply in_seq in J; lia). split; [exact W|]. split; [reflexivity|]. apply C195_privkey; [intros x; apply app_nil_r|exact W|reflexivity].
Qed.

(* ---------------- commands after db create and db rekey ---------------- *)
(* The passphrase that was entered last at a successful mutectrl db create or db rekey, and the files.  Attempts to rekey that fail before
   the key database is touched may lie between. *)
Definition short (p : bytes) : Prop := ~ In 10 p /\ lenN p <= 681.
Inductive history (C : Crypto) (K : kdf) (home : bytes) : bytes -> fs -> Prop :=
| h_create L P dM dK iter rM rK e cut opt key p k s r k' s' : short p -> (forall x, concat (cut x) = x) ->
    ctrlCreate C K L P dM dK home iter rM rK e cut opt key p k s = (r, k', s') -> is_ok r = true -> history C K home p s'
| h_rekey dM dK iter rM rK e cut old new s s' : history C K home old s -> short new -> (forall x, concat (cut x) = x) -> askCtrl e = Ok (old, new) ->
    ctrlRekey C K dM dK home iter rM rK e cut s = (Ok tt, s') -> history C K home new s'
| h_failed dM dK iter rM rK e cut p new s r s' : history C K home p s -> askCtrl e = Ok (p, new) -> is_ok (fst (rekey C K dM (msgsName home) p new iter rM s)) = false ->
    ctrlRekey C K dM dK home iter rM rK e cut s = (r, s') -> history C K home p s'
| h_refused dM dK iter rM rK e cut p old new s r s' : history C K home p s -> askCtrl e = Ok (old, new) -> is_ok (openDB C K (msgsName home) old s) = false ->
    ctrlRekey C K dM dK home iter rM rK e cut s = (r, s') -> history C K home p s'.

Lemma linesOf_cr a b : ~ In 10 a -> linesOf (a ++ 10 :: b) = chop_cr a :: linesOf b.
Proof. intros N1. rewrite linesOf_cut, (cutOn_line a b (no10 a N1)). reflexivity. Qed.
Lemma seen_chop p : ~ In 10 p -> seen p (chop_cr p).
Proof. intros N1. destruct (cr_dec p) as [[q ->]|N2]; [rewrite chop_13; constructor; intros I; apply N1, in_or_app; left; exact I|rewrite (noCR p N2); constructor; split; assumption]. Qed.
Lemma rekey_cr old new cut : short old -> short new -> (forall x, concat (cut x) = x) -> askRekey (cut (rekeyInput old new)) = Ok (chop_cr old, chop_cr new).
Proof.
  intros [A L1] [B L2] CU. rewrite C133_short_partial; rewrite CU.
  - unfold line, rekeyInput. cbn [app]. rewrite (linesOf_cr old _ A), (linesOf_cr new _ B), (linesOf_cr new [] B). cbn [nth]. rewrite beq_refl. reflexivity.
  - unfold rekeyInput. rewrite !lenN_app. change (lenN [10]) with 1. lia.
Qed.
Lemma create_cr p cut : short p -> (forall x, concat (cut x) = x) -> exists sc, askNew (cut (createInput p)) = Ok (chop_cr p, sc).
Proof.
  intros [A L] CU. destruct (C132_short_partial (cut (createInput p))) as [H _]; [rewrite CU; unfold createInput; rewrite !lenN_app; change (lenN [10]) with 1; lia|]. rewrite CU in H. unfold line in H.
  assert (Q : linesOf (createInput p) = [chop_cr p; chop_cr p]) by (unfold createInput; cbn [app]; rewrite (linesOf_cr p _ A), (linesOf_cr p [] A); reflexivity). rewrite Q in H. cbn [nth] in H. exact (H eq_refl).
Qed.
Lemma linked C K home p s : history C K home p s -> short p /\ exists kM kK, openDB C K (msgsName home) p s = Ok kM /\ openDB C K (keysName home) (chop_cr p) s = Ok kK.
Proof.
  induction 1 as [L P dM dK iter rM rK e cut opt key p k s r k' s' SH CU E R|dM dK iter rM rK e cut old new s s' _ [SO (kM & kK & OM & OK')] SN CU A E|dM dK iter rM rK e cut p new s r s' _ [SO (kM & kK & OM & OK')] A F E|dM dK iter rM rK e cut p old new s r s' _ [SO (kM & kK & OM & OK')] A F E].
  - split; [exact SH|]. unfold ctrlCreate in E. destruct (create C K dM (msgsName home) p iter rM s) as [r1 l1] eqn:C1. destruct r1 as [[]|x|]; [|injection E as <- <- <-; discriminate R|injection E as <- <- <-; discriminate R].
    destruct (C98_opens_partial _ _ _ _ _ _ _ _ _ C1) as (kM & _ & OM). rewrite OM in E. destruct (fetchconf C L P e k) as [rf kf]. destruct rf as [[]|x|]; [|injection E as <- <- <-; discriminate R|injection E as <- <- <-; discriminate R].
    destruct (create_cr p cut SH CU) as [sc AN]. rewrite AN in E. destruct (create C K dK (keysName home) (chop_cr p) iter rK (last l1 s)) as [r2 l2] eqn:C2. destruct r2 as [[]|x|]; [|injection E as <- <- <-; discriminate R|injection E as <- <- <-; discriminate R].
    destruct (C98_opens_partial _ _ _ _ _ _ _ _ _ C2) as (kK & _ & OK'). injection E as <- <- <-. destruct (names_apart2 home) as (N1 & N2 & N3 & N4).
    exists kM, kK. split; [|exact OK']. etransitivity; [|exact OM]. apply openDB_cong; apply (create_frame _ _ _ _ _ _ _ _ _ _ _ C2); congruence.
  - split; [exact SN|]. unfold ctrlRekey in E. rewrite A in E. destruct (rekey C K dM (msgsName home) old new iter rM s) as [r1 l1] eqn:R1. pose proof (C67_database _ _ _ _ _ _ _ _ _ _ _ _ OM R1) as (_ & M1 & _). pose proof (keys_keep _ _ _ _ _ _ _ _ _ _ _ (chop_cr old) R1) as KK. rewrite OK' in KK.
    destruct r1 as [[]|x|]; [|discriminate E|discriminate E]. specialize (M1 eq_refl). rewrite (rekey_cr old new cut SO SN CU) in E. destruct (rekey C K dK (keysName home) (chop_cr old) (chop_cr new) iter rK (last l1 s)) as [r2 l2] eqn:R2. apply pair_equal_spec in E as [-> <-].
    pose proof (C67_database _ _ _ _ _ _ _ _ _ _ _ _ KK R2) as (_ & K1 & _). pose proof (msgs_keep _ _ _ _ _ _ _ _ _ _ _ new R2) as MM. rewrite M1 in MM. exists kM, kK. split; [exact MM|exact (K1 eq_refl)].
  - split; [exact SO|]. unfold ctrlRekey in E. rewrite A in E. destruct (rekey C K dM (msgsName home) p new iter rM s) as [r1 l1] eqn:R1. cbn [fst] in F. pose proof (C67_database _ _ _ _ _ _ _ _ _ _ _ _ OM R1) as (_ & _ & M2). pose proof (keys_keep _ _ _ _ _ _ _ _ _ _ _ (chop_cr p) R1) as KK. rewrite OK' in KK. specialize (M2 F).
    exists kM, kK. destruct r1 as [[]|x|]; [discriminate F| |]; apply pair_equal_spec in E as [_ <-]; split; assumption.
  - split; [exact SO|]. unfold ctrlRekey in E. rewrite A in E. unfold rekey at 1 in E. exists kM, kK. destruct (openDB C K (msgsName home) old s) as [y|y|]; [discriminate F| |]; apply pair_equal_spec in E as [_ <-]; split; assumption.
Qed.
(* The passphrase that somebody gives: what is typed, or what is seen of a file (of up to 65534 bytes), in whatever pieces it is read. *)
Inductive gives : given -> bytes -> Prop :=
  | gives_typed p : gives (Typed p) p
  | gives_piped pieces p : lenN (concat pieces) <= 65534 -> seen (concat pieces) p -> gives (Piped pieces) p.
Lemma gives_got g p : gives g p -> got g = Ok p.
Proof.
  intros [q|pieces q L S']; [reflexivity|]. cbn [got]. destruct (hand_read pieces (fits_short _ L)) as [mem A]. rewrite A. cbn [rbind]. rewrite (seen_first _ _ S'). reflexivity.
Qed.
(* Whoever gives the passphrase to a command of mutectrl opens both databases with it, though mutecrypt may get another text.
   Missing: passphrases of more than 681 bytes. *)
Theorem C195_commands_partial : forall C K home p s g cut, history C K home p s -> gives g p -> (forall x, concat (cut x) = x) ->
  exists kM kK q, ctrlOpen C K home cut g s = Some (Ok (kM, kK)) /\ openDB C K (msgsName home) p s = Ok kM /\ seen p q /\ openDB C K (keysName home) q s = Ok kK.
Proof.
  intros C K home p s g cut H G CU. destruct (linked C K home p s H) as [[N1 L] (kM & kK & OM & OK')]. exists kM, kK, (chop_cr p). pose proof (seen_chop p N1) as S'. unfold ctrlOpen. rewrite (gives_got g p G). cbn [rbind]. rewrite OM. cbn [rbind].
  rewrite (proj2 (C195_seen cut p (chop_cr p) (CU p) ltac:(lia)) S'), OK'. cbn [rbind]. repeat split; assumption.
Qed.
(* without a CR at its end it is the passphrase of both *)
Theorem C195_one_partial : forall C K home p s, history C K home p s -> (forall b, p <> b ++ [13]) -> is_ok (openDB C K (msgsName home) p s) = true /\ is_ok (openDB C K (keysName home) p s) = true.
Proof. intros C K home p s H N2. destruct (linked C K home p s H) as [_ (kM & kK & OM & OK')]. rewrite (noCR p N2) in OK'. rewrite OM, OK'. split; reflexivity. Qed.
(* a passphrase that ends in CR (entered at a terminal, or a line of a file that ends in CR CR LF): the key database has another passphrase *)
Definition exCr : bytes := str "pass" ++ [13].
Definition exMk (p : bytes) := ctrlCreate toy toyKdf noLib exProg goodDisk goodDisk exHm 1 exRnd (rev exRnd) (exEnv 1000000 2 (exRel exFull)) (fun x => [x]) [] (map N.of_nat (seq 0 64)) p exNew [].
Lemma short_pass : short (str "pass") /\ short exCr.
Proof. split; (split; [vm_compute; intuition discriminate|vm_compute; discriminate]). Qed.
Lemma whole (x : bytes) : concat [x] = x.
Proof. apply app_nil_r. Qed.
Definition exCrFs : fs := Eval vm_compute in snd (exMk exCr).
Definition exPassFs : fs := Eval vm_compute in snd (exMk (str "pass")).
Lemma exMk_ok : is_ok (fst (fst (exMk exCr))) = true /\ snd (exMk exCr) = exCrFs /\ is_ok (fst (fst (exMk (str "pass")))) = true /\ snd (exMk (str "pass")) = exPassFs.
Proof. vm_compute. repeat split; reflexivity. Qed.
Lemma exCr_history : history toy toyKdf exHm exCr exCrFs.
Proof.
  destruct exMk_ok as (R & S' & _). destruct (exMk exCr) as [[r k'] s'] eqn:E. cbn [fst snd] in R, S'. subst s'. unfold exMk in E. refine (h_create toy toyKdf exHm _ _ _ _ _ _ _ _ _ _ _ _ _ _ _ _ _ (proj2 short_pass) _ E R). exact whole.
Qed.
Lemma exPass_history : history toy toyKdf exHm (str "pass") exPassFs.
Proof.
  destruct exMk_ok as (_ & _ & R & S'). destruct (exMk (str "pass")) as [[r k'] s'] eqn:E. cbn [fst snd] in R, S'. subst s'. unfold exMk in E. refine (h_create toy toyKdf exHm _ _ _ _ _ _ _ _ _ _ _ _ _ _ _ _ _ (proj1 short_pass) _ E R). exact whole.
Qed.
Theorem C195_refuted : exists C K home p q s, history C K home p s /\ is_ok (openDB C K (msgsName home) p s) = true /\ is_ok (openDB C K (keysName home) p s) = false /\ q <> p /\ is_ok (openDB C K (keysName home) q s) = true /\ is_ok (openDB C K (msgsName home) q s) = false.
Proof. exists toy, toyKdf, exHm, exCr, (str "pass"), exCrFs. split; [exact exCr_history|]. split; [vm_compute; reflexivity|]. split; [vm_compute; reflexivity|]. split; [discriminate|]. split; vm_compute; reflexivity. Qed.
(* the commands work all the same, also after a rekey *)
Definition exRe (p : bytes) (s : fs) := ctrlRekey toy toyKdf goodDisk goodDisk exHm 1 exRnd (rev exRnd) (Terminal p (str "new") (str "new")) (fun x => [x]) s.
Example C195_commands_ex : (exists kM kK q, ctrlOpen toy toyKdf exHm (fun x => [x]) (Typed exCr) exCrFs = Some (Ok (kM, kK)) /\ openDB toy toyKdf (msgsName exHm) exCr exCrFs = Ok kM /\ seen exCr q /\ openDB toy toyKdf (keysName exHm) q exCrFs = Ok kK) /\
  history toy toyKdf exHm (str "pass") exPassFs /\ (forall b, str "pass" <> b ++ [13]).
Proof.
  split; [apply C195_commands_partial; [exact exCr_history|constructor|exact whole]|]. split; [exact exPass_history|]. intros b Q. apply (f_equal (@rev N)) in Q. rewrite rev_app_distr in Q. vm_compute in Q. discriminate Q.
Qed.
Example C195_piped_ex : gives (Piped [str "pa"; str "ss" ++ [13]; 13 :: 10 :: str "more"]) exCr.
Proof.
  constructor; [vm_compute; discriminate|]. change (seen (exCr ++ 13 :: 10 :: str "more") exCr). constructor. vm_compute. intuition discriminate.
Qed.
Example C195_rekey_ex : exists s', history toy toyKdf exHm (str "new") s'.
Proof.
  assert (R : fst (exRe exCr exCrFs) = Ok tt) by (vm_compute; reflexivity). destruct (exRe exCr exCrFs) as [r s'] eqn:E. cbn [fst] in R. subst r. exists s'. unfold exRe in E.
  refine (h_rekey toy toyKdf exHm _ _ _ _ _ _ _ _ _ _ _ exCr_history _ whole _ E); [split; [vm_compute; intuition discriminate|vm_compute; discriminate]|reflexivity].
Qed.
Example C195_seen_ex : seen exCr (str "pass") /\ seen (str "two" ++ 10 :: str "lines") (str "two") /\ handed (fun x => [x]) (str "two" ++ 10 :: str "lines") = Some (Ok (str "two")).
Proof.
  assert (I : isLine (str "two")) by (split; [vm_compute; intuition discriminate|]; intros b Q; apply (f_equal (@rev N)) in Q; rewrite rev_app_distr in Q; vm_compute in Q; discriminate Q).
  split; [constructor; vm_compute; intuition discriminate|]. split; [constructor; exact I|]. apply C195_seen; [apply whole|vm_compute; discriminate|constructor; exact I].
Qed.
Print Assumptions C195_seen.
Print Assumptions C195_same.
Print Assumptions C195_blocks.
Print Assumptions C195_privkey.
Print Assumptions C195_commands_partial.
Print Assumptions C195_one_partial.
Print Assumptions C195_refuted.
