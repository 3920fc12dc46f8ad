(* Entering passphrases, and rekeying both databases: C132, C133, C134, C135. *)
From Verif Require Import Base Base64Model CodecModel CodecProofs Maps IdentityModel IdentityProofs SqlModel MsgDBModel CryptoModel KeyfileModel PropsKeyfile ScanModel ScanProofs.
Local Open Scope N_scope.

(* a line that can be entered: no line break in it, and no CR at its end *)
Definition isLine (a : bytes) : Prop := ~ In 10 a /\ forall b, a <> b ++ [13].
Lemma no10 a : ~ In 10 a -> cutOn 10 a = None.
Proof.
  induction a as [|c a IH]; intros N; cbn [cutOn]; [reflexivity|]. destruct (N.eqb_spec c 10) as [->|_]; [exfalso; apply N; left; reflexivity|]. rewrite IH; [reflexivity|]. intros I. apply N. right. exact I.
Qed.
Lemma noCR a : (forall b, a <> b ++ [13]) -> chop_cr a = a.
Proof.
  intros N. unfold chop_cr. destruct (rev a) as [|x r] eqn:E; [reflexivity|]. assert (L : a = rev r ++ [x]) by (rewrite <- (rev_involutive a), E; reflexivity).
  destruct x as [|p]; [reflexivity|]. repeat (destruct p as [p|p|]; try reflexivity). exfalso. exact (N _ L).
Qed.
Lemma isLine_repeat x n : x <> 10 -> x <> 13 -> isLine (repeat x n).
Proof.
  intros N1 N2. split.
  - intros I. apply repeat_spec in I. congruence.
  - intros b E. assert (I : In 13 (repeat x n)) by (rewrite E; apply in_or_app; right; left; reflexivity). apply repeat_spec in I. congruence.
Qed.
Lemma lenN_repeat (x : N) n : lenN (repeat x (N.to_nat n)) = n.
Proof. unfold lenN. rewrite repeat_length. apply N2Nat.id. Qed.
Lemma linesOf_line a b : isLine a -> linesOf (a ++ 10 :: b) = a :: linesOf b.
Proof. intros [N1 N2]. rewrite linesOf_cut, (cutOn_line a b (no10 a N1)), (noCR a N2). reflexivity. Qed.

(* ---------------- C132 ---------------- *)
(* All lines of the input are returned in their order, in whatever pieces it comes. *)
Fixpoint readLines (n : nat) (s : scanner) : list bytes :=
  match n with
  | O => []
  | S m => match scan s with (Some t, s') => deref s' (Some t) :: readLines m s' | (None, _) => [] end
  end.
Lemma readLines_sane n : forall s rest, sane s rest -> fits rest -> (length (linesOf rest) <= n)%nat -> readLines n s = linesOf rest.
Proof.
  induction n as [|n IH]; intros s rest H F L; cbn [readLines]; [destruct (linesOf rest); [reflexivity|cbn [length] in L; lia]|].
  destruct (scan_next s rest H F) as (r & s' & rest' & SC & H' & F' & D & T & Q). rewrite SC. destruct r as [t|].
  - destruct (linesOf rest) as [|l ls] eqn:E; [destruct Q as [_ Q]; discriminate (Q eq_refl)|]. cbn [tl] in T. cbn [nth] in D. rewrite D, (IH s' rest' H' F'); [rewrite T; reflexivity|]. rewrite T. cbn [length] in L. lia.
  - symmetry. apply Q. reflexivity.
Qed.
Theorem C132_scanner : forall pieces n, Forall (fun l => lenN l <= 65534) (linesOf (concat pieces)) -> (length (linesOf (concat pieces)) <= n)%nat -> readLines n (newScanner pieces) = linesOf (concat pieces).
Proof. intros pieces n F L. apply readLines_sane; [apply sane_new|exact F|exact L]. Qed.
(* two different lines are taken for the same: the second was read to the place of the first *)
Theorem C132_overwritten : forall a b, isLine a -> isLine b -> lenN b = lenN a -> 2048 <= lenN a <= 4095 -> exists s, askNew [a ++ [10]; b ++ [10]] = Ok (b, s).
Proof. intros a b [A1 A2] [B1 B2] LL LA. apply overwritten; auto using no10, noCR. Qed.
Theorem C132_refuted : exists pieces p s, line 0 (concat pieces) <> line 1 (concat pieces) /\ askNew pieces = Ok (p, s) /\ p <> line 0 (concat pieces).
Proof.
  set (a := repeat 97 (N.to_nat 2048)). set (b := repeat 98 (N.to_nat 2048)). assert (IA : isLine a) by (apply isLine_repeat; discriminate). assert (IB : isLine b) by (apply isLine_repeat; discriminate).
  assert (NE : forall n, repeat 97 (S n) <> repeat 98 (S n)) by (intros n Q; discriminate Q). assert (AB : a <> b) by (unfold a, b; change (N.to_nat 2048) with (S (N.to_nat 2047)); apply NE).
  destruct (C132_overwritten a b IA IB) as [s E]; [unfold a, b; rewrite !lenN_repeat; reflexivity|unfold a; rewrite lenN_repeat; lia|]. exists [a ++ [10]; b ++ [10]], b, s.
  assert (LN : linesOf (concat [a ++ [10]; b ++ [10]]) = [a; b]) by (cbn [concat]; rewrite app_nil_r, <- app_assoc; cbn [app]; rewrite (linesOf_line a _ IA), (linesOf_line b [] IB); reflexivity).
  unfold line. rewrite LN. cbn [nth]. split; [exact AB|]. split; [exact E|]. congruence.
Qed.
(* Missing: input of more than 2048 bytes.  Up to there the passphrase is accepted exactly if the two lines are the same. *)
Theorem C132_short_partial : forall pieces, lenN (concat pieces) <= 2048 ->
  (line 0 (concat pieces) = line 1 (concat pieces) -> exists s, askNew pieces = Ok (line 0 (concat pieces), s)) /\
  (line 0 (concat pieces) <> line 1 (concat pieces) -> askNew pieces = Err "passphrases differ").
Proof.
  intros pieces L. destruct (three_reads pieces L) as (p0 & s0 & p1 & s1 & p2 & s2 & R0 & R1 & _ & _ & D0 & D1 & _). unfold askNew. rewrite R0. cbn [rbind]. rewrite R1. cbn [rbind]. rewrite D0, D1. split.
  - intros <-. rewrite beq_refl. exists s1. reflexivity.
  - intros N. destruct (beq _ _) eqn:E; [apply beq_spec in E; contradiction|reflexivity].
Qed.
(* nothing has to be entered at all *)
Theorem C132_empty : exists s, askNew [] = Ok ([], s).
Proof. destruct (C132_short_partial [] ltac:(vm_compute; discriminate)) as [A _]. exact (A eq_refl). Qed.
Example C132_ex : (exists s, askNew [str "sec"; str "ret"; [10]; str "secret"; [13; 10]] = Ok (str "secret", s)) /\ askNew [str "secret"; 10 :: str "Secret"; [10]] = Err "passphrases differ".
Proof. split; [destruct (C132_short_partial [str "sec"; str "ret"; [10]; str "secret"; [13; 10]] ltac:(vm_compute; discriminate)) as [A _]; exact (A eq_refl)|]. apply (C132_short_partial [str "secret"; 10 :: str "Secret"; [10]]); vm_compute; discriminate. Qed.

(* ---------------- C133 ---------------- *)
Theorem C133_overwritten : forall old new, isLine old -> isLine new -> lenN new = lenN old -> 1365 <= lenN old <= 2047 -> askRekey [rekeyInput old new] = Ok (new, new).
Proof. intros old new [A1 A2] [B1 B2] LL LA. apply old_overwritten; auto using no10, noCR. Qed.
Lemma rekeyLines old new : isLine old -> isLine new -> linesOf (rekeyInput old new) = [old; new; new].
Proof. intros A B. unfold rekeyInput. cbn [app]. rewrite (linesOf_line old _ A), (linesOf_line new _ B), (linesOf_line new [] B). reflexivity. Qed.
Theorem C133_refuted : exists pieces old new, askRekey pieces = Ok (old, new) /\ old <> line 0 (concat pieces).
Proof.
  set (a := repeat 97 (N.to_nat 1365)). set (b := repeat 98 (N.to_nat 1365)). assert (IA : isLine a) by (apply isLine_repeat; discriminate). assert (IB : isLine b) by (apply isLine_repeat; discriminate).
  exists [rekeyInput a b], b, b. split; [apply (C133_overwritten a b IA IB); unfold a, b; rewrite !lenN_repeat; [reflexivity|lia]|]. cbn [concat]. rewrite app_nil_r. unfold line. rewrite (rekeyLines a b IA IB). cbn [nth]. unfold a, b. change (N.to_nat 1365) with (S (N.to_nat 1364)). intros Q. discriminate Q.
Qed.
(* Missing: input of more than 2048 bytes. *)
Theorem C133_short_partial : forall pieces, lenN (concat pieces) <= 2048 ->
  askRekey pieces = (if beq (line 1 (concat pieces)) (line 2 (concat pieces)) then Ok (line 0 (concat pieces), line 1 (concat pieces)) else Err "new passphrases differ").
Proof.
  intros pieces L. destruct (three_reads pieces L) as (p0 & s0 & p1 & s1 & p2 & s2 & R0 & R1 & R2 & _ & _ & _ & D0 & D1 & D2). unfold askRekey. rewrite R0. cbn [rbind]. rewrite R1. cbn [rbind]. rewrite R2. cbn [rbind]. rewrite D0, D1, D2. destruct (beq _ _); reflexivity.
Qed.
Example C133_ex : askRekey [str "o"; str "ld"; 10 :: str "new" ++ [10]; str "new"] = Ok (str "old", str "new") /\ askRekey [rekeyInput (str "old") (str "new")] = Ok (str "old", str "new").
Proof. split; rewrite C133_short_partial by (vm_compute; discriminate); reflexivity. Qed.

(* ---------------- C134 ---------------- *)
Lemma names_apart home : dbFile (keysName home) <> keyFile (msgsName home) /\ dbFile (keysName home) <> tmpName (keyFile (msgsName home)) /\ keyFile (keysName home) <> keyFile (msgsName home) /\ keyFile (keysName home) <> tmpName (keyFile (msgsName home)) /\
  dbFile (msgsName home) <> keyFile (keysName home) /\ dbFile (msgsName home) <> tmpName (keyFile (keysName home)) /\ keyFile (msgsName home) <> keyFile (keysName home) /\ keyFile (msgsName home) <> tmpName (keyFile (keysName home)).
Proof. unfold tmpName, dbFile, keyFile, msgsName, keysName. rewrite <- !app_assoc. repeat split; intros Q; apply app_inv_head in Q; vm_compute in Q; discriminate Q. Qed.
Lemma last_in {A} (l : list A) d : last l d = d \/ In (last l d) l.
Proof. destruct l as [|x l]; [left; reflexivity|]. right. destruct (@exists_last _ (x :: l) ltac:(discriminate)) as (a & b & Q). rewrite Q, last_last. apply in_or_app. right. left. reflexivity. Qed.
(* rekeying changes only the files of the key file *)
Lemma rekey_frame C K d name old new iter rnd s r l g : rekey C K d name old new iter rnd s = (r, l) -> g <> keyFile name -> g <> tmpName (keyFile name) -> mget g (last l s) = mget g s.
Proof.
  intros E N1 N2. unfold rekey in E. destruct (openDB C K name old s) as [key|e|] eqn:O; [|inversion E; reflexivity|inversion E; reflexivity]. apply openDB_iff in O as [_ RK]. destruct (replace_states _ _ _ _ _ _ _ _ _ _ _ _ RK E) as (_ & G & _).
  destruct (last_in l s) as [->|I]; [reflexivity|]. apply (G _ g I N1 N2).
Qed.
Lemma openDB_cong C K name p s s' : mget (dbFile name) s' = mget (dbFile name) s -> mget (keyFile name) s' = mget (keyFile name) s -> openDB C K name p s' = openDB C K name p s.
Proof. intros A B. unfold openDB, readKeyfile. rewrite A, B. reflexivity. Qed.
Lemma msgs_keep C K d home old new iter rnd s r l p : rekey C K d (keysName home) old new iter rnd s = (r, l) -> openDB C K (msgsName home) p (last l s) = openDB C K (msgsName home) p s.
Proof. intros E. destruct (names_apart home) as (_ & _ & _ & _ & A & B & F & G). apply openDB_cong; apply (rekey_frame _ _ _ _ _ _ _ _ _ _ _ _ E); assumption. Qed.
Lemma keys_keep C K d home old new iter rnd s r l p : rekey C K d (msgsName home) old new iter rnd s = (r, l) -> openDB C K (keysName home) p (last l s) = openDB C K (keysName home) p s.
Proof. intros E. destruct (names_apart home) as (A & B & F & G & _). apply openDB_cong; apply (rekey_frame _ _ _ _ _ _ _ _ _ _ _ _ E); assumption. Qed.
(* mutecrypt gets what mutectrl wrote *)
Lemma passed_on old new cut : isLine old -> isLine new -> concat (cut (rekeyInput old new)) = rekeyInput old new -> lenN (rekeyInput old new) <= 2048 -> askRekey (cut (rekeyInput old new)) = Ok (old, new).
Proof. intros A B E L. rewrite C133_short_partial by (rewrite E; exact L). rewrite E. unfold line. rewrite (rekeyLines old new A B). cbn [nth]. rewrite beq_refl. reflexivity. Qed.

(* both under the new passphrase if it succeeds; otherwise none was lost, but they may be under different ones *)
Theorem C134_short_partial : forall C K dM dK home iter rM rK e cut s old new kM kK r s',
  askCtrl e = Ok (old, new) -> isLine old -> isLine new -> (forall x, concat (cut x) = x) -> lenN (rekeyInput old new) <= 2048 ->
  openDB C K (msgsName home) old s = Ok kM -> openDB C K (keysName home) old s = Ok kK -> ctrlRekey C K dM dK home iter rM rK e cut s = (r, s') ->
  (r = Ok tt -> openDB C K (msgsName home) new s' = Ok kM /\ openDB C K (keysName home) new s' = Ok kK) /\
  (is_ok r = false -> openDB C K (keysName home) old s' = Ok kK /\ (openDB C K (msgsName home) old s' = Ok kM \/ openDB C K (msgsName home) new s' = Ok kM)).
Proof.
  intros C K dM dK home iter rM rK e cut s old new kM kK r s' A IO IN CU L OM OK' E. unfold ctrlRekey in E. rewrite A in E. destruct (rekey C K dM (msgsName home) old new iter rM s) as [r1 l1] eqn:R1. pose proof (C67_database _ _ _ _ _ _ _ _ _ _ _ _ OM R1) as (_ & M1 & M2). pose proof (keys_keep _ _ _ _ _ _ _ _ _ _ _ old R1) as KK. rewrite OK' in KK.
  destruct r1 as [[]|x|].
  - specialize (M1 eq_refl). rewrite (passed_on old new cut IO IN (CU _) L) in E. destruct (rekey C K dK (keysName home) old new iter rK (last l1 s)) as [r2 l2] eqn:R2. inversion E; subst r2 s'. clear E. pose proof (C67_database _ _ _ _ _ _ _ _ _ _ _ _ KK R2) as (_ & K1 & K2). pose proof (msgs_keep _ _ _ _ _ _ _ _ _ _ _ new R2) as MM. rewrite M1 in MM.
    split; [intros Q; split; [exact MM|exact (K1 Q)]|]. intros Q. split; [exact (K2 Q)|right; exact MM].
  - inversion E; subst. split; [discriminate|]. intros _. split; [exact KK|left; apply M2; reflexivity].
  - inversion E; subst. split; [discriminate|]. intros _. split; [exact KK|left; apply M2; reflexivity].
Qed.
(* nothing fails if the disk and the random source work *)
Theorem C134_works_partial : forall C K home iter rM rK e cut s old new kM kK,
  askCtrl e = Ok (old, new) -> isLine old -> isLine new -> (forall x, concat (cut x) = x) -> lenN (rekeyInput old new) <= 2048 ->
  openDB C K (msgsName home) old s = Ok kM -> openDB C K (keysName home) old s = Ok kK -> lenN kM = 32 -> lenN kK = 32 -> (0 <= iter <= 2147483647)%Z -> 48 <= lenN rM -> 48 <= lenN rK ->
  exists s', ctrlRekey C K goodDisk goodDisk home iter rM rK e cut s = (Ok tt, s') /\ openDB C K (msgsName home) new s' = Ok kM /\ openDB C K (keysName home) new s' = Ok kK.
Proof.
  intros C K home iter rM rK e cut s old new kM kK A IO IN CU L OM OK' LM LK II LRM LRK. destruct (ctrlRekey C K goodDisk goodDisk home iter rM rK e cut s) as [r s'] eqn:E. exists s'.
  assert (RO : r = Ok tt).
  { unfold ctrlRekey in E. rewrite A in E. destruct (C67_repeat C K (msgsName home) old new iter rM s kM OM LM II LRM) as [l1 R1]. rewrite R1 in E. rewrite (passed_on old new cut IO IN (CU _) L) in E.
    pose proof (keys_keep _ _ _ _ _ _ _ _ _ _ _ old R1) as KK. rewrite OK' in KK. destruct (C67_repeat C K (keysName home) old new iter rK (last l1 s) kK KK LK II LRK) as [l2 R2]. rewrite R2 in E. congruence. }
  destruct (C134_short_partial _ _ _ _ _ _ _ _ _ _ _ _ _ _ _ _ _ A IO IN CU L OM OK' E) as [Q _]. subst r. split; [reflexivity|exact (Q eq_refl)].
Qed.
(* Long passphrases that mutecrypt gets in one piece: the messages are under the new one, the keys under the old one. *)
Theorem C134_long : forall C K dK home iter rM rK e s old new kM kK,
  askCtrl e = Ok (old, new) -> isLine old -> isLine new -> lenN new = lenN old -> 1365 <= lenN old <= 2047 ->
  openDB C K (msgsName home) old s = Ok kM -> openDB C K (keysName home) old s = Ok kK -> is_ok (openDB C K (keysName home) new s) = false -> lenN kM = 32 -> (0 <= iter <= 2147483647)%Z -> 48 <= lenN rM ->
  exists s', is_ok (fst (ctrlRekey C K goodDisk dK home iter rM rK e (fun x => [x]) s)) = false /\ snd (ctrlRekey C K goodDisk dK home iter rM rK e (fun x => [x]) s) = s' /\
    openDB C K (msgsName home) new s' = Ok kM /\ openDB C K (keysName home) old s' = Ok kK /\ is_ok (openDB C K (keysName home) new s') = false.
Proof.
  intros C K dK home iter rM rK e s old new kM kK A IO IN LL LO OM OK' ON LM II LR. unfold ctrlRekey. rewrite A. destruct (C67_repeat C K (msgsName home) old new iter rM s kM OM LM II LR) as [l1 R1]. rewrite R1. rewrite (C133_overwritten old new IO IN LL LO).
  pose proof (keys_keep _ _ _ _ _ _ _ _ _ _ _ old R1) as KO. rewrite OK' in KO. pose proof (keys_keep _ _ _ _ _ _ _ _ _ _ _ new R1) as KN. rewrite <- KN in ON. pose proof (C67_database _ _ _ _ _ _ _ _ _ _ _ _ OM R1) as (_ & M1 & _).
  unfold rekey. destruct (openDB C K (keysName home) new (last l1 s)) as [k|x|] eqn:EN; [discriminate ON| |]; exists (last l1 s); cbn [fst snd is_ok last]; (split; [reflexivity|]; split; [reflexivity|]; split; [exact (M1 eq_refl)|]; split; [exact KO|]); rewrite EN; reflexivity.
Qed.
(* the way back: the same command with the passphrases exchanged *)
Theorem C134_recover : forall C K dK home iter rM rK e cut s old new kM kK,
  askCtrl e = Ok (new, old) -> isLine old -> isLine new -> (forall x, concat (cut x) = x) -> lenN (rekeyInput new old) <= 2048 ->
  openDB C K (msgsName home) new s = Ok kM -> openDB C K (keysName home) old s = Ok kK -> lenN kM = 32 -> (0 <= iter <= 2147483647)%Z -> 48 <= lenN rM ->
  let s' := snd (ctrlRekey C K goodDisk dK home iter rM rK e cut s) in openDB C K (msgsName home) old s' = Ok kM /\ openDB C K (keysName home) old s' = Ok kK.
Proof.
  intros C K dK home iter rM rK e cut s old new kM kK A IO IN CU L OM OK' LM II LR. unfold ctrlRekey. rewrite A. destruct (C67_repeat C K (msgsName home) new old iter rM s kM OM LM II LR) as [l1 R1]. rewrite R1. rewrite (passed_on new old cut IN IO (CU _) L).
  pose proof (keys_keep _ _ _ _ _ _ _ _ _ _ _ old R1) as KO. rewrite OK' in KO. pose proof (C67_database _ _ _ _ _ _ _ _ _ _ _ _ OM R1) as (_ & M1 & _). specialize (M1 eq_refl).
  destruct (rekey C K dK (keysName home) new old iter rK (last l1 s)) as [r2 l2] eqn:R2. cbn [snd]. rewrite (msgs_keep _ _ _ _ _ _ _ _ _ _ _ old R2). split; [exact M1|].
  destruct (openDB C K (keysName home) new (last l1 s)) as [k|x|] eqn:ON.
  - assert (k = kK) by (apply openDB_iff in ON as [D1 _]; apply openDB_iff in KO as [D2 _]; congruence). subst k. destruct (C67_database _ _ _ _ _ _ _ _ _ _ _ _ ON R2) as (_ & B1 & _). unfold rekey in R2. rewrite ON in R2. destruct r2 as [[]|x|]; [apply B1; reflexivity| |];
    apply openDB_iff in ON as [D RK]; destruct (replace_states _ _ _ _ _ _ _ _ _ _ _ _ RK R2) as (_ & G & _ & G2); specialize (G2 eq_refl); rewrite (openDB_cong C K (keysName home) old (last l1 s) (last l2 (last l1 s))); auto;
    (destruct (last_in l2 (last l1 s)) as [Q|Q]; [rewrite Q; reflexivity|apply (G _ _ Q); apply suffix_neq]).
  - unfold rekey in R2. rewrite ON in R2. inversion R2; subst. exact KO.
  - unfold rekey in R2. rewrite ON in R2. inversion R2; subst. exact KO.
Qed.
(* a key derivation that depends on the first character only *)
Definition headKdf : kdf := fun p _ _ => repeat (hd 0 p) 32.
Definition exHome : bytes := str "h".
Definition exBoth (p : bytes) : fs :=
  let s1 := last (snd (create toy headKdf goodDisk (msgsName exHome) p 64000 exRnd [])) [] in
  last (snd (create toy headKdf goodDisk (keysName exHome) p 64000 exRnd s1)) s1.
Definition long (x : N) : bytes := repeat x (N.to_nat 1365).
Theorem C134_refuted : exists C K home iter rM rK e old new s kM kK s',
  askCtrl e = Ok (old, new) /\ openDB C K (msgsName home) old s = Ok kM /\ openDB C K (keysName home) old s = Ok kK /\
  snd (ctrlRekey C K goodDisk goodDisk home iter rM rK e (fun x => [x]) s) = s' /\ openDB C K (msgsName home) new s' = Ok kM /\ is_ok (openDB C K (keysName home) new s') = false /\ openDB C K (keysName home) old s' = Ok kK.
Proof.
  assert (OM : openDB toy headKdf (msgsName exHome) (long 97) (exBoth (long 97)) = Ok (takeN 32 exRnd)) by (vm_compute; reflexivity). assert (OK' : openDB toy headKdf (keysName exHome) (long 97) (exBoth (long 97)) = Ok (takeN 32 exRnd)) by (vm_compute; reflexivity).
  assert (ON : is_ok (openDB toy headKdf (keysName exHome) (long 98) (exBoth (long 97))) = false) by (vm_compute; reflexivity).
  assert (LL : forall x, lenN (long x) = 1365) by (intros x; apply lenN_repeat). assert (A : askCtrl (Terminal (long 97) (long 98) (long 98)) = Ok (long 97, long 98)) by (cbn [askCtrl]; rewrite beq_refl; reflexivity).
  destruct (C134_long toy headKdf goodDisk exHome 1 exRnd exRnd (Terminal (long 97) (long 98) (long 98)) (exBoth (long 97)) (long 97) (long 98) (takeN 32 exRnd) (takeN 32 exRnd) A) as (s' & _ & E & H1 & H2 & H3);
    [apply isLine_repeat; discriminate|apply isLine_repeat; discriminate|rewrite !LL; reflexivity|rewrite LL; lia|exact OM|exact OK'|exact ON|vm_compute; reflexivity|lia|vm_compute; discriminate|].
  exists toy, headKdf, exHome, 1%Z, exRnd, exRnd, (Terminal (long 97) (long 98) (long 98)), (long 97), (long 98), (exBoth (long 97)), (takeN 32 exRnd), (takeN 32 exRnd), s'. split; [exact A|]. split; [exact OM|]. split; [exact OK'|]. split; [exact E|]. split; [exact H1|]. split; [exact H3|exact H2].
Qed.
(* a failing disk has the same effect with short passphrases *)
Example C134_disk_ex : let s := exBoth (str "old") in let s' := snd (ctrlRekey toy headKdf goodDisk (mkDisk true None false) exHome 1 exRnd exRnd (File [rekeyInput (str "old") (str "new")]) (fun x => [x]) s) in
  is_ok (openDB toy headKdf (msgsName exHome) (str "new") s') = true /\ is_ok (openDB toy headKdf (keysName exHome) (str "new") s') = false /\ is_ok (openDB toy headKdf (keysName exHome) (str "old") s') = true.
Proof. split; [|split]; vm_compute; reflexivity. Qed.
Example C134_ex : exists s', ctrlRekey toy headKdf goodDisk goodDisk exHome 1 exRnd exRnd (Terminal (str "old") (str "new") (str "new")) (fun x => [x]) (exBoth (str "old")) = (Ok tt, s') /\
  openDB toy headKdf (msgsName exHome) (str "new") s' = Ok (takeN 32 exRnd) /\ openDB toy headKdf (keysName exHome) (str "new") s' = Ok (takeN 32 exRnd).
Proof.
  assert (IL : forall c1 c2 c3, c3 <> 13 -> ~ In 10 [c1; c2; c3] -> isLine [c1; c2; c3]).
  { intros c1 c2 c3 N1 N2. split; [exact N2|]. intros b Q. apply N1. destruct b as [|x1 [|x2 [|x3 [|x4 b]]]]; cbn [app] in Q; try discriminate Q. congruence. }
  apply C134_works_partial with (old := str "old"); try (vm_compute; reflexivity); try (vm_compute; discriminate); try lia.
  - apply IL; [discriminate|]. intros [Q|[Q|[Q|[]]]]; discriminate Q.
  - apply IL; [discriminate|]. intros [Q|[Q|[Q|[]]]]; discriminate Q.
  - intros x. cbn [concat]. apply app_nil_r.
Qed.

(* ---------------- C135 ---------------- *)
(* The passphrase of a new database is in the memory when the function has returned, for every input that is accepted. *)
Theorem C135_remains : forall pieces p s, lenN (concat pieces) <= 2048 -> askNew pieces = Ok (p, s) -> exists a b, scBuf s = a ++ p ++ b.
Proof.
  intros pieces p s L E. assert (FT : fits (concat pieces)) by (apply fits_short; lia). destruct (readPass_next _ _ (sane_new pieces) FT) as (p0 & s0 & r0 & E0 & R0 & H0 & F0 & D0 & T0). destruct (readPass_next s0 r0 H0 F0) as (p1 & s1 & r1 & E1 & R1 & H1 & F1 & D1 & T1).
  destruct (first_still pieces p0 s0 L E0) as (e0 & S0 & P0). destruct (scan_still _ _ _ _ _ S0 E1) as (e1 & L1 & S1 & P1).
  unfold askNew in E. rewrite R0 in E. cbn [rbind] in E. rewrite R1 in E. cbn [rbind] in E. destruct (negb _); [discriminate E|]. assert (Q : deref s1 p0 = p /\ s1 = s) by (split; congruence). destruct Q as [<- <-]. destruct p0 as [sl|]; [|exists [], (scBuf s1); reflexivity].
  destruct (P0 sl eq_refl) as [B _]. unfold deref. rewrite B, (st_old _ _ _ S1). cbn [app nth]. exists (takeN (slOff sl) (scBuf s1)), (dropN (slLen sl) (dropN (slOff sl) (scBuf s1))). rewrite (takeN_dropN (slLen sl)). symmetry. apply takeN_dropN.
Qed.
Theorem C135_refuted : exists pieces p s a b, askNew pieces = Ok (p, s) /\ 5 <= lenN p /\ scBuf s = a ++ p ++ b.
Proof.
  destruct (C132_short_partial [str "secret" ++ [10]; str "secret" ++ [10]] ltac:(vm_compute; discriminate)) as [A _]. destruct (A eq_refl) as [s E]. change (line 0 (concat [str "secret" ++ [10]; str "secret" ++ [10]])) with (str "secret") in E.
  assert (L : lenN (concat [str "secret" ++ [10]; str "secret" ++ [10]]) <= 2048) by (vm_compute; discriminate). destruct (C135_remains _ _ _ L E) as (a & b & Q). exists [str "secret" ++ [10]; str "secret" ++ [10]], (str "secret"), s, a, b. split; [exact E|]. split; [vm_compute; discriminate|exact Q].
Qed.
(* The passphrase that opens the key database is overwritten.  Missing: what follows the line, and long lines, see below. *)
Lemma Forall_takeN {A} (P : A -> Prop) n l : Forall P l -> Forall P (takeN n l).
Proof. intros F. rewrite <- (takeN_dropN n l) in F. apply Forall_app in F. apply F. Qed.
Theorem C135_open_partial : forall pieces p t, concat pieces = p ++ t -> Forall (fun x => x = 10 \/ x = 13) t -> linesOf (p ++ t) = [p] -> lenN (p ++ t) <= 2048 ->
  exists mem, askOpen pieces = Ok (p, mem) /\ Forall (Forall (fun x => x = 0 \/ x = 10 \/ x = 13)) mem.
Proof.
  intros pieces p t CE FT LN L. rewrite <- CE in L, LN. assert (FI : fits (concat pieces)) by (apply fits_short; lia). destruct (readPass_next _ _ (sane_new pieces) FI) as (p0 & s0 & r0 & E0 & R0 & H0 & F0 & D0 & T0). destruct (first_still pieces p0 s0 L E0) as (e0 & S0 & P0). rewrite LN in D0. cbn [nth] in D0.
  unfold askOpen. rewrite R0. cbn [rbind]. rewrite D0. eexists. split; [reflexivity|]. rewrite (st_old _ _ _ S0). cbn [app]. destruct p0 as [sl|].
  - destruct (P0 sl eq_refl) as (B & LE & O). unfold bzero. rewrite B. cbn [updNth]. repeat constructor. rewrite O in *. rewrite N.add_0_l in LE. pose proof (deref_still _ _ _ _ S0 B ltac:(rewrite O, N.add_0_l; exact LE)) as DS. rewrite D0, O, dropN_0 in DS.
    pose proof (st_short _ _ _ S0) as [_ LI]. assert (SL : slLen sl = lenN p) by (rewrite DS, lenN_takeN; lia). rewrite SL in *. unfold zeroIn. rewrite takeN_0, N.add_0_l. cbn [app]. apply Forall_app. split; [apply Forall_forall; intros x I; apply repeat_spec in I; auto|].
    rewrite <- (takeN_dropN e0 (scBuf s0)), (st_same _ _ _ S0), CE. rewrite dropN_appl by (rewrite lenN_takeN, <- CE; lia). apply Forall_app. split.
    + rewrite dropN_takeN, (dropN_app p t) by reflexivity. apply Forall_takeN. eapply Forall_impl; [|exact FT]. intros x [->| ->]; auto.
    + eapply Forall_impl; [|apply (st_zero _ _ _ S0)]. intros x ->. auto.
  - cbn [bzero]. cbn [deref] in D0. subst p. cbn [app] in CE. repeat constructor. rewrite <- (takeN_dropN e0 (scBuf s0)), (st_same _ _ _ S0), CE. apply Forall_app. split.
    + apply Forall_takeN. eapply Forall_impl; [|exact FT]. intros x [->| ->]; auto.
    + eapply Forall_impl; [|apply (st_zero _ _ _ S0)]. intros x ->. auto.
Qed.
Example C135_open_ex : exists mem, askOpen [str "sec"; str "ret"; [13]; [10]] = Ok (str "secret", mem) /\ Forall (Forall (fun x => x = 0 \/ x = 10 \/ x = 13)) mem.
Proof. apply (C135_open_partial _ (str "secret") [13; 10]); [reflexivity|constructor; [right; reflexivity|constructor; [left; reflexivity|constructor]]|reflexivity|vm_compute; discriminate]. Qed.
(* a line that does not fit into the first buffer stays there *)
Theorem C135_open_long : forall a, isLine a -> lenN a = 4096 -> exists mem, askOpen [a; [10]] = Ok (a, mem) /\ In a mem.
Proof.
  intros a [N1 N2] LA. assert (NE : Forall (fun p : bytes => p <> []) [a; [10]]) by (repeat constructor; [intros ->; vm_compute in LA; discriminate LA|discriminate]).
  set (z := repeat 0 (N.to_nat 4095)). assert (LZ : lenN z = 4095) by apply lenN_repeat. assert (LB : lenN (a ++ repeat 0 (N.to_nat 4096)) = 8192) by (rewrite lenN_app, LA, lenN_repeat; reflexivity).
  assert (S1 : scan (newScanner [a; [10]]) = (Some (mkSl 2 0 4096), mkScan [[]; a] (a ++ 10 :: z) 4097 4097 false false [])).
  { unfold scan. assert (FU : exists k, length (concat (scIn (newScanner [a; [10]]))) = S k).
    { exists (length a). pose proof (sn_rest _ _ (sane_new [a; [10]])) as Q. unfold scData in Q. cbn [newScanner scStart scEnd scBuf] in Q. rewrite takeN_0 in Q. cbn [app] in Q. rewrite <- Q. cbn [concat]. rewrite app_nil_r, app_length. cbn [length]. lia. }
    destruct FU as [k FU]. rewrite FU. clear FU.
    set (s1 := mkScan [[]] a 0 4096 false false [[10]]). assert (R1 : scRead (mkScan [[]] zeros 0 0 false false [a; [10]]) = s1).
    { unfold scRead. cbn [scIn scBuf scEnd scOld scStart scEof scLong]. cbv zeta. rewrite lenN_zeros, (takeN_all a) by lia. replace (lenN a <=? 4096 - 0) with true by (symmetry; apply N.leb_le; lia). rewrite takeN_0, LA. cbn [app]. replace (dropN (0 + 4096) zeros) with (@nil N) by (symmetry; rewrite N.add_0_l, <- lenN_zeros; apply (dropN_all zeros); lia). rewrite app_nil_r. reflexivity. }
    rewrite (first_loop _ _ NE), R1. assert (D1 : scData s1 = a) by (unfold scData, s1; cbn [scStart scEnd scBuf]; rewrite dropN_0; apply takeN_all; lia).
    assert (G1 : scGrow (scShift s1) = Some (mkScan [[]; a] (a ++ repeat 0 (N.to_nat 4096)) 0 4096 false false [[10]])).
    { change (scShift s1) with s1. unfold scGrow. rewrite D1. unfold s1. cbn [scStart scEnd scBuf scOld scEof scLong scIn]. rewrite LA. reflexivity. }
    assert (R2 : scRead (mkScan [[]; a] (a ++ repeat 0 (N.to_nat 4096)) 0 4096 false false [[10]]) = mkScan [[]; a] (a ++ 10 :: z) 0 4097 false false []).
    { unfold scRead. cbn [scIn scBuf scEnd scOld scStart scEof scLong]. cbv zeta. rewrite LB, (takeN_all [10]) by (vm_compute; discriminate). change (lenN [10] <=? 8192 - 4096) with true. rewrite (takeN_app a) by exact LA. change (4096 + lenN [10]) with 4097. cbn iota.
      replace (dropN 4097 (a ++ repeat 0 (N.to_nat 4096))) with z; [reflexivity|]. change (repeat 0 (N.to_nat 4096)) with ([0] ++ z). rewrite app_assoc. symmetry. apply dropN_app. rewrite lenN_app, LA. reflexivity. }
    rewrite (loop_miss _ s1 _ ltac:(rewrite D1; apply no10; exact N1) eq_refl G1). rewrite R2.
    rewrite (loop_hit k _ _ 0 4097 _ _ _ a []); [rewrite LA; reflexivity| |apply no10, N1|apply noCR, N2|lia].
    rewrite dropN_0, N.sub_0_r. change (a ++ 10 :: z) with (a ++ [10] ++ z). rewrite app_assoc. rewrite takeN_app by (rewrite lenN_app, LA; reflexivity). reflexivity. }
  unfold askOpen, readPass. rewrite S1. cbn [rbind]. eexists. split; [unfold deref; cbn [slBuf slOff slLen scOld scBuf app nth]; rewrite dropN_0, takeN_app by exact LA; reflexivity|]. cbn [bzero slBuf scOld scBuf app updNth]. right. left. reflexivity.
Qed.
Example C135_open_long_ex : isLine (repeat 97 (N.to_nat 4096)) /\ lenN (repeat 97 (N.to_nat 4096)) = 4096.
Proof. split; [apply isLine_repeat; discriminate|apply lenN_repeat]. Qed.

Print Assumptions C132_scanner.
Print Assumptions C132_overwritten.
Print Assumptions C132_refuted.
Print Assumptions C132_short_partial.
Print Assumptions C132_empty.
Print Assumptions C133_overwritten.
Print Assumptions C133_refuted.
Print Assumptions C133_short_partial.
Print Assumptions C134_short_partial.
Print Assumptions C134_works_partial.
Print Assumptions C134_long.
Print Assumptions C134_recover.
Print Assumptions C134_refuted.
Print Assumptions C135_remains.
Print Assumptions C135_refuted.
Print Assumptions C135_open_partial.
Print Assumptions C135_open_long.
