(* Key files: C65, C66, C67, C97, C98. *)
From Verif Require Import Base Base64Model CryptoModel Maps KeyfileModel.
Local Open Scope N_scope.

Lemma lenN_le n v : lenN (le n v) = N.of_nat n.
Proof. unfold lenN. rewrite le_length. reflexivity. Qed.
Lemma fread_app a b n : n <> 0 -> lenN a = n -> fread n (a ++ b) = Ok (a, b).
Proof.
  intros NZ L. unfold fread. destruct (a ++ b) as [|x r] eqn:E.
  - apply app_eq_nil in E as [-> ->]. rewrite lenN_nil in L. congruence.
  - rewrite <- E. rewrite <- app_assoc, takeN_app by exact L. rewrite dropN_app by exact L. reflexivity.
Qed.
Lemma readContent_bytes C K pass iter key rnd : iter <= 2147483647 -> lenN key = 32 -> 48 <= lenN rnd -> readContent C K pass (keyfileBytes C K pass iter key rnd) = Ok key.
Proof.
  intros I LK LR. unfold readContent, keyfileBytes. cbv zeta. set (salt := takeN 32 rnd). set (iv := takeN 16 (dropN 32 rnd)).
  assert (LS : lenN salt = 32) by (unfold salt; rewrite lenN_takeN; lia). assert (LV : lenN iv = 16) by (unfold iv; rewrite lenN_takeN, lenN_dropN; lia).
  rewrite (fread_app (le 8 iter)) by (try discriminate; apply lenN_le). cbn [rbind]. rewrite le_dec_le, N.mod_small by (change (256 ^ N.of_nat 8) with 18446744073709551616; lia).
  destruct (N.ltb_spec 2147483647 iter); [lia|]. rewrite (fread_app salt) by (try discriminate; exact LS). cbn [rbind].
  rewrite <- (app_nil_r (iv ++ _)). rewrite fread_app; [|discriminate|rewrite lenN_app, cbcenc_len; lia]. cbn [rbind]. rewrite takeN_app, dropN_app by exact LV. rewrite cbcdec_enc. reflexivity.
Qed.
Lemma last_prefixes f c n s d : last (prefixes f c n s) d = mset f (firstn n c) s.
Proof. unfold prefixes. rewrite seq_S, map_app. cbn [map app Nat.add]. rewrite last_last. reflexivity. Qed.
Lemma In_prefixes f c n s x : In x (prefixes f c n s) -> exists k, x = mset f (firstn k c) s.
Proof. unfold prefixes. intros I. apply in_map_iff in I as (k & <- & _). exists k. reflexivity. Qed.
(* every state during writing differs from the first at most in the file *)
Lemma writeKeyfile_only C K d f pass iter key rnd s r l : writeKeyfile C K d f pass iter key rnd s = (r, l) -> forall x, In x l -> forall g, g <> f -> mget g x = mget g s.
Proof.
  intros E x I g NE. unfold writeKeyfile in E. destruct (mget f s); [injection E as <- <-; destruct I|]. destruct (_ || _); [injection E as <- <-; destruct I|]. destruct (negb (lenN key =? 32)); [injection E as <- <-; destruct I|]. destruct (negb (dCreate d)); [injection E as <- <-; destruct I|].
  destruct (lenN rnd <? 32); [injection E as <- <-; destruct I as [<-|[]]; apply mget_mset_other; exact NE|]. destruct (lenN rnd <? 48); [injection E as <- <-; destruct I as [<-|[]]; apply mget_mset_other; exact NE|]. cbv zeta in E.
  assert (G : forall n, In x (prefixes f (keyfileBytes C K pass (Z.to_N iter) key rnd) n s) -> mget g x = mget g s) by (intros n J; apply In_prefixes in J as [k ->]; apply mget_mset_other; exact NE).
  destruct (dRoom d) as [n|]; [destruct (_ <? _)%nat|]; injection E as <- <-; eapply G; exact I.
Qed.
Lemma writeKeyfile_ok C K d f pass iter key rnd s l : writeKeyfile C K d f pass iter key rnd s = (Ok tt, l) ->
  (0 <= iter <= 2147483647)%Z /\ lenN key = 32 /\ 48 <= lenN rnd /\ forall x, last l x = mset f (keyfileBytes C K pass (Z.to_N iter) key rnd) s /\ l <> [].
Proof.
  intros E. unfold writeKeyfile in E. destruct (mget f s); [discriminate|]. destruct ((iter <? 0)%Z || (2147483647 <? iter)%Z) eqn:I; [discriminate|]. destruct (lenN key =? 32) eqn:L; cbn [negb] in E; [|discriminate]. destruct (dCreate d); cbn [negb] in E; [|discriminate].
  destruct (lenN rnd <? 32); [discriminate|]. destruct (N.ltb_spec (lenN rnd) 48) as [|R]; [discriminate|]. cbv zeta in E. apply N.eqb_eq in L. apply orb_false_iff in I as [I1 I2]. apply Z.ltb_ge in I1, I2. split; [lia|]. split; [exact L|]. split; [exact R|].
  set (c := keyfileBytes C K pass (Z.to_N iter) key rnd) in *. assert (Q : l = prefixes f c (length c) s) by (destruct (dRoom d) as [n|]; [destruct (_ <? _)%nat|]; congruence). subst l. intros x. rewrite last_prefixes, firstn_all. split; [reflexivity|]. discriminate.
Qed.

(* ---------------- C65 ---------------- *)
Theorem C65_roundtrip : forall C K d f pass iter key rnd s l, writeKeyfile C K d f pass iter key rnd s = (Ok tt, l) -> readKeyfile C K f pass (last l s) = Ok key.
Proof.
  intros C K d f pass iter key rnd s l E. apply writeKeyfile_ok in E as (I & L & R & Q). destruct (Q s) as [-> _]. unfold readKeyfile. rewrite mget_mset_same. apply readContent_bytes; [lia|exact L|exact R].
Qed.
Theorem C65_generate : forall C K d f pass iter rnd s key l, generateKeyfile C K d f pass iter rnd s = (Ok key, l) -> lenN key = 32 /\ readKeyfile C K f pass (last l s) = Ok key.
Proof.
  intros C K d f pass iter rnd s key l E. unfold generateKeyfile in E. destruct (lenN rnd <? 32) eqn:L; [discriminate|]. destruct (writeKeyfile _ _ _ _ _ _ _ _ _) as [[[]|e|] l'] eqn:W; try discriminate. injection E as <- <-. split; [apply N.ltb_ge in L; rewrite lenN_takeN; lia|]. eapply C65_roundtrip, W.
Qed.
(* nothing is ever overwritten, and it always works with a working disk and random source *)
Theorem C65_noclobber : forall C K d f pass iter key rnd s c, mget f s = Some c -> exists e, writeKeyfile C K d f pass iter key rnd s = (Err e, []).
Proof. intros C K d f pass iter key rnd s c M. unfold writeKeyfile. rewrite M. eexists. reflexivity. Qed.
Theorem C65_works : forall C K f pass iter key rnd s, mget f s = None -> (0 <= iter <= 2147483647)%Z -> lenN key = 32 -> 48 <= lenN rnd -> exists l, writeKeyfile C K goodDisk f pass iter key rnd s = (Ok tt, l).
Proof.
  intros C K f pass iter key rnd s M I L R. unfold writeKeyfile. rewrite M. destruct (Z.ltb_spec iter 0); [lia|]. destruct (Z.ltb_spec 2147483647 iter); [lia|]. cbn [orb]. rewrite L. change (32 =? 32) with true. cbn [negb goodDisk dCreate dRoom]. destruct (N.ltb_spec (lenN rnd) 32); [lia|]. destruct (N.ltb_spec (lenN rnd) 48); [lia|]. eexists. reflexivity.
Qed.
Definition toyKdf : kdf := fun p s i => sha256 toy (p ++ s ++ be 8 i).
Definition exRnd : bytes := map N.of_nat (seq 1 100).
Definition exFs : fs := last (snd (writeKeyfile toy toyKdf goodDisk (str "k") (str "old") 64000 (repeat 7 32) exRnd [])) [].
Example C65_ex : readKeyfile toy toyKdf (str "k") (str "old") exFs = Ok (repeat 7 32) /\ readKeyfile toy toyKdf (str "k") (str "bad") exFs <> Ok (repeat 7 32).
Proof. split; vm_compute; [reflexivity|discriminate]. Qed.

(* ---------------- C66 ---------------- *)
Definition cutTo (n : nat) (f : bytes) (s : fs) : fs := match mget f s with Some c => mset f (firstn n c) s | None => s end.
(* half of the encrypted key is missing and a wrong key is returned without an error *)
Theorem C66_refuted : exists C K f pass s s' key key', readKeyfile C K f pass s = Ok key /\ s' = cutTo 60 f s /\ readKeyfile C K f pass s' = Ok key' /\ key' <> key.
Proof. exists toy, toyKdf, (str "k"), (str "old"), exFs, (cutTo 60 (str "k") exFs), (repeat 7 32). eexists. split; [vm_compute; reflexivity|]. split; [reflexivity|]. split; [vm_compute; reflexivity|]. vm_compute. discriminate. Qed.
(* Exactly the files of at most 40 bytes, or with a large iteration count, are refused.  Missing: files of 41 to 87 bytes, or longer than 88. *)
Lemma fread_len n s a r : fread n s = Ok (a, r) -> s <> [] /\ lenN a = n /\ r = dropN n s.
Proof.
  unfold fread. destruct s as [|x s]; [discriminate|]. intros E. injection E as <- <-. split; [discriminate|]. split; [|reflexivity]. change (x :: s ++ repeat 0 (N.to_nat n)) with ((x :: s) ++ repeat 0 (N.to_nat n)). rewrite lenN_takeN, lenN_app. assert (R : lenN (repeat 0 (N.to_nat n)) = n) by (unfold lenN; rewrite repeat_length; lia). rewrite R. lia.
Qed.
Theorem C66_short_partial : forall C K f pass s (c : bytes), mget f s = Some c -> lenN c <= 40 -> is_ok (readKeyfile C K f pass s) = false.
Proof.
  intros C K f pass s c M L. unfold readKeyfile. rewrite M. unfold readContent. destruct (fread 8 c) as [[b r]|e|] eqn:F1; [|reflexivity|reflexivity]. cbn [rbind]. destruct (2147483647 <? le_dec b); [reflexivity|]. apply fread_len in F1 as (_ & _ & ->).
  destruct (fread 32 (dropN 8 c)) as [[b2 r2]|e|] eqn:F2; [|reflexivity|reflexivity]. cbn [rbind]. apply fread_len in F2 as (_ & _ & ->). destruct (dropN 32 (dropN 8 c)) as [|x y] eqn:D; [reflexivity|].
  apply (f_equal lenN) in D. rewrite !lenN_dropN, lenN_cons in D. lia.
Qed.
(* for every cipher and every passphrase, a file of 41 bytes or more is accepted *)
Theorem C66_accepts : forall C K f pass s (c : bytes), mget f s = Some c -> 41 <= lenN c -> le_dec (takeN 8 c) <= 2147483647 -> is_ok (readKeyfile C K f pass s) = true.
Proof.
  intros C K f pass s c M L I. unfold readKeyfile. rewrite M. unfold readContent. assert (F1 : fread 8 c = Ok (takeN 8 c, dropN 8 c)).
  { rewrite <- (takeN_dropN 8 c) at 1. apply fread_app; [discriminate|]. rewrite lenN_takeN. lia. }
  rewrite F1. cbn [rbind]. destruct (N.ltb_spec 2147483647 (le_dec (takeN 8 c))); [lia|]. assert (F2 : fread 32 (dropN 8 c) = Ok (takeN 32 (dropN 8 c), dropN 32 (dropN 8 c))).
  { rewrite <- (takeN_dropN 32 (dropN 8 c)) at 1. apply fread_app; [discriminate|]. rewrite lenN_takeN, lenN_dropN. lia. }
  rewrite F2. cbn [rbind]. destruct (dropN 32 (dropN 8 c)) as [|x y] eqn:D; [|reflexivity]. apply (f_equal lenN) in D. rewrite !lenN_dropN, lenN_nil in D. lia.
Qed.
Theorem C66_never_panics : forall C K f pass s, readKeyfile C K f pass s <> Panic.
Proof.
  intros C K f pass s. unfold readKeyfile. destruct (mget f s) as [c|]; [|discriminate]. unfold readContent, fread. destruct c as [|x c]; [discriminate|]. cbn [rbind]. destruct (_ <? _); [discriminate|]. destruct (dropN 8 _); [discriminate|]. cbn [rbind]. destruct (dropN 32 _); [discriminate|]. discriminate.
Qed.
Example C66_short_ex : is_ok (readKeyfile toy toyKdf (str "k") (str "old") (cutTo 40 (str "k") exFs)) = false /\ is_ok (readKeyfile toy toyKdf (str "k") (str "old") (cutTo 41 (str "k") exFs)) = true.
Proof. split; vm_compute; reflexivity. Qed.

(* ---------------- C67 ---------------- *)
Lemma tmp_neq f : tmpName f <> f.
Proof. intros E. apply (f_equal lenN) in E. unfold tmpName in E. rewrite lenN_app in E. change (lenN (str ".new")) with 4 in E. lia. Qed.
Lemma readKeyfile_cong C K f p s s' : mget f s' = mget f s -> readKeyfile C K f p s' = readKeyfile C K f p s.
Proof. unfold readKeyfile. intros ->. reflexivity. Qed.
(* all states during a change of the passphrase; other files than the temporary one are untouched *)
Lemma replace_states C K d f old new iter rnd s r l key : readKeyfile C K f old s = Ok key -> replaceKeyfile C K d f old new iter rnd s = (r, l) ->
  (forall x, In x l -> mget f x = mget f s \/ (r = Ok tt /\ x = last l s /\ readKeyfile C K f new x = Ok key)) /\
  (forall x g, In x l -> g <> f -> g <> tmpName f -> mget g x = mget g s) /\ (r = Ok tt -> readKeyfile C K f new (last l s) = Ok key) /\ (is_ok r = false -> mget f (last l s) = mget f s).
Proof.
  intros RK E. unfold replaceKeyfile in E. rewrite RK in E. set (s1 := mdel (tmpName f) s) in *. destruct (writeKeyfile C K d (tmpName f) new iter key rnd s1) as [r' l'] eqn:W.
  assert (S1 : forall g, g <> tmpName f -> mget g s1 = mget g s) by (intros g NE; apply mget_mdel_other; exact NE). assert (NF : f <> tmpName f) by (intros Q; symmetry in Q; exact (tmp_neq f Q)).
  assert (OLD : forall x g, In x (s1 :: l') -> g <> tmpName f -> mget g x = mget g s). { intros x g [<-|I] NE; [apply S1, NE|]. rewrite (writeKeyfile_only _ _ _ _ _ _ _ _ _ _ _ W x I g NE). apply S1, NE. }
  assert (LST : forall y, In (last (s1 :: l') y) (s1 :: l')). { intros y. destruct (@exists_last _ (s1 :: l') ltac:(discriminate)) as (a & b & Q). rewrite Q, last_last. apply in_or_app. right. left. reflexivity. }
  assert (KEEP : forall r0, is_ok r0 = false -> (forall x, In x (s1 :: l') -> mget f x = mget f s \/ (r0 = Ok tt /\ x = last (s1 :: l') s /\ readKeyfile C K f new x = Ok key)) /\ (forall x g, In x (s1 :: l') -> g <> f -> g <> tmpName f -> mget g x = mget g s) /\ (r0 = Ok tt -> readKeyfile C K f new (last (s1 :: l') s) = Ok key) /\ (is_ok r0 = false -> mget f (last (s1 :: l') s) = mget f s)).
  { intros r0 NO. split; [intros x I; left; apply OLD; [exact I|exact NF]|]. split; [intros x g I _ NE; apply OLD; assumption|]. split; [intros ->; discriminate|]. intros _. apply OLD; [apply LST|exact NF]. }
  destruct r' as [[]|e|]; [|injection E as <- <-; apply KEEP; reflexivity|injection E as <- <-; apply KEEP; reflexivity].
  apply writeKeyfile_ok in W as (I & L & R & Q). destruct (Q s1) as [Q1 Q2]. rewrite Q1, mget_mset_same in E. destruct (dRename d); [|injection E as <- <-; apply KEEP; reflexivity]. injection E as <- <-.
  set (fin := mset f _ _). assert (FIN : readKeyfile C K f new fin = Ok key) by (unfold readKeyfile, fin; rewrite mget_mset_same; apply readContent_bytes; [lia|exact L|exact R]).
  assert (LS : last (s1 :: l' ++ [fin]) s = fin) by (rewrite app_comm_cons; apply last_last).
  split; [|split; [|split; [intros _; eapply eq_trans; [|exact FIN]; f_equal; exact LS|discriminate]]].
  - intros x J. rewrite app_comm_cons in J. apply in_app_or in J as [J|[<-|[]]]; [left; apply OLD; [exact J|exact NF]|right; split; [reflexivity|]; split; [symmetry; exact LS|exact FIN]].
  - intros x g J N1 N2. rewrite app_comm_cons in J. apply in_app_or in J as [J|[<-|[]]]; [apply OLD; assumption|]. unfold fin. rewrite mget_mset_other by exact N1. rewrite beq_refl, !mget_mdel_other by exact N2. apply S1, N2.
Qed.
(* interrupted anywhere, the key file opens with the old or the new passphrase and gives the same key *)
Theorem C67_crash : forall C K d f old new iter rnd s r l key, readKeyfile C K f old s = Ok key -> replaceKeyfile C K d f old new iter rnd s = (r, l) ->
  (forall x, In x l -> readKeyfile C K f old x = Ok key \/ readKeyfile C K f new x = Ok key) /\ (r = Ok tt -> readKeyfile C K f new (last l s) = Ok key) /\ (is_ok r = false -> readKeyfile C K f old (last l s) = Ok key).
Proof.
  intros C K d f old new iter rnd s r l key RK E. destruct (replace_states _ _ _ _ _ _ _ _ _ _ _ _ RK E) as (A & _ & B & D). split; [|split; [exact B|]].
  - intros x I. destruct (A x I) as [Q|(_ & _ & Q)]; [left; rewrite (readKeyfile_cong _ _ _ _ _ _ Q); exact RK|right; exact Q].
  - intros N0. rewrite (readKeyfile_cong _ _ _ _ _ _ (D N0)). exact RK.
Qed.
(* the same for the database: it opens with one of the passphrases, and the change can be repeated *)
Lemma suffix_neq name : dbFile name <> keyFile name /\ dbFile name <> tmpName (keyFile name).
Proof.
  split; intros E; apply (f_equal lenN) in E; unfold tmpName, dbFile, keyFile in E; rewrite ?lenN_app in E; change (lenN (str ".db")) with 3 in E; change (lenN (str ".key")) with 4 in E; change (lenN (str ".new")) with 4 in E; lia.
Qed.
Lemma openDB_iff C K name pass s key : openDB C K name pass s = Ok key <-> mget (dbFile name) s = Some key /\ readKeyfile C K (keyFile name) pass s = Ok key.
Proof.
  unfold openDB. split.
  - destruct (mget (dbFile name) s) as [k|] eqn:D; [|discriminate]. destruct (mget (keyFile name) s) eqn:F; [|discriminate]. destruct (readKeyfile _ _ _ _ _) as [k'|e|]; try discriminate. cbn [rbind]. destruct (beq k' k) eqn:B; [|discriminate]. apply beq_spec in B. intros E. assert (k' = key) by congruence. subst. auto.
  - intros [D R]. rewrite D. pose proof R as R'. unfold readKeyfile in R'. destruct (mget (keyFile name) s); [|discriminate]. rewrite R. cbn [rbind]. rewrite beq_refl. reflexivity.
Qed.
Theorem C67_database : forall C K d name old new iter rnd s r l key, openDB C K name old s = Ok key -> rekey C K d name old new iter rnd s = (r, l) ->
  (forall x, In x l -> openDB C K name old x = Ok key \/ openDB C K name new x = Ok key) /\ (r = Ok tt -> openDB C K name new (last l s) = Ok key) /\ (is_ok r = false -> openDB C K name old (last l s) = Ok key).
Proof.
  intros C K d name old new iter rnd s r l key O E. unfold rekey in E. rewrite O in E. apply openDB_iff in O as [D RK]. destruct (C67_crash _ _ _ _ _ _ _ _ _ _ _ _ RK E) as (A & B & F). destruct (replace_states _ _ _ _ _ _ _ _ _ _ _ _ RK E) as (_ & G & _).
  destruct (suffix_neq name) as [N1 N2]. assert (DB : forall x, In x l -> mget (dbFile name) x = Some key) by (intros x I; rewrite (G x _ I N1 N2); exact D).
  assert (LST : mget (dbFile name) (last l s) = Some key). { destruct l as [|y l']; [exact D|]. apply DB. destruct (@exists_last _ (y :: l') ltac:(discriminate)) as (a & b & Q). rewrite Q, last_last. apply in_or_app. right. left. reflexivity. }
  split; [|split].
  - intros x I. destruct (A x I) as [Q|Q]; [left|right]; apply openDB_iff; auto.
  - intros Q. apply openDB_iff. auto.
  - intros Q. apply openDB_iff. auto.
Qed.
Theorem C67_repeat : forall C K name old new iter rnd s key, openDB C K name old s = Ok key -> lenN key = 32 -> (0 <= iter <= 2147483647)%Z -> 48 <= lenN rnd -> exists l, rekey C K goodDisk name old new iter rnd s = (Ok tt, l).
Proof.
  intros C K name old new iter rnd s key O L I R. unfold rekey. rewrite O. apply openDB_iff in O as [_ RK]. unfold replaceKeyfile. rewrite RK. set (f := keyFile name).
  destruct (C65_works C K (tmpName f) new iter key rnd (mdel (tmpName f) s) ltac:(apply mget_mdel_same) I L R) as [l W]. rewrite W. apply writeKeyfile_ok in W as (_ & _ & _ & Q). destruct (Q (mdel (tmpName f) s)) as [-> _]. rewrite mget_mset_same. eexists. reflexivity.
Qed.
Definition exDb : fs := last (snd (create toy toyKdf goodDisk (str "d") (str "old") 64000 exRnd [])) [].
Example C67_ex : is_ok (openDB toy toyKdf (str "d") (str "old") exDb) = true /\ length (snd (rekey toy toyKdf goodDisk (str "d") (str "old") (str "new") 1 exRnd exDb)) = 91%nat /\
  openDB toy toyKdf (str "d") (str "new") (last (snd (rekey toy toyKdf goodDisk (str "d") (str "old") (str "new") 1 exRnd exDb)) []) = openDB toy toyKdf (str "d") (str "old") exDb.
Proof. split; [|split]; vm_compute; reflexivity. Qed.

(* ---------------- C97 ---------------- *)
(* the power fails after a successful change: no passphrase opens the database again *)
Theorem C97_refuted : exists C K name old new iter rnd s l s', is_ok (openDB C K name old s) = true /\ rekey C K goodDisk name old new iter rnd s = (Ok tt, l) /\ powerLoss [keyFile name] (last l s) s' /\ forall pass, is_ok (openDB C K name pass s') = false.
Proof.
  exists toy, toyKdf, (str "d"), (str "old"), (str "new"), 1%Z, exRnd, exDb. exists (snd (rekey toy toyKdf goodDisk (str "d") (str "old") (str "new") 1 exRnd exDb)).
  exists (cutTo 0 (keyFile (str "d")) (last (snd (rekey toy toyKdf goodDisk (str "d") (str "old") (str "new") 1 exRnd exDb)) exDb)). split; [vm_compute; reflexivity|]. split; [vm_compute; reflexivity|].
  set (s := last _ _). assert (M : exists c, mget (keyFile (str "d")) s = Some c) by (eexists; vm_compute; reflexivity). destruct M as [c M]. unfold cutTo. rewrite M. split.
  - split.
    + intros f N0. apply mget_mset_other. intros Q. apply N0. left. congruence.
    + intros f [<-|[]]. rewrite M. exists 0%nat. apply mget_mset_same.
  - intros pass. unfold openDB. destruct (mget (dbFile (str "d")) _); [|reflexivity]. rewrite mget_mset_same. unfold readKeyfile. rewrite mget_mset_same. reflexivity.
Qed.
(* Missing: the temporary file is not synchronised before it replaces the key file.  Before the rename the power may fail. *)
Theorem C97_before_partial : forall C K d name old new iter rnd s r l key x x', openDB C K name old s = Ok key -> rekey C K d name old new iter rnd s = (r, l) -> In x l -> x <> last l s \/ is_ok r = false ->
  powerLoss [tmpName (keyFile name)] x x' -> openDB C K name old x' = Ok key.
Proof.
  intros C K d name old new iter rnd s r l key x x' O E I B [P _]. unfold rekey in E. rewrite O in E. apply openDB_iff in O as [D RK]. destruct (replace_states _ _ _ _ _ _ _ _ _ _ _ _ RK E) as (A & G & _). destruct (suffix_neq name) as [N1 N2]. apply openDB_iff. split.
  - rewrite P by (intros [Q|[]]; congruence). rewrite (G x _ I N1 N2). exact D.
  - rewrite (readKeyfile_cong C K (keyFile name) old s x'); [exact RK|]. rewrite P by (intros [Q|[]]; exact (tmp_neq _ Q)). destruct (A x I) as [Q|(Q1 & Q2 & _)]; [exact Q|]. destruct B as [B|B]; [congruence|]. subst r. discriminate.
Qed.
Example C97_before_ex : exists x, nth_error (snd (rekey toy toyKdf goodDisk (str "d") (str "old") (str "new") 1 exRnd exDb)) 50 = Some x /\ mget (tmpName (keyFile (str "d"))) x <> None /\ openDB toy toyKdf (str "d") (str "old") x = openDB toy toyKdf (str "d") (str "old") exDb.
Proof. eexists. split; [vm_compute; reflexivity|]. split; [vm_compute; discriminate|vm_compute; reflexivity]. Qed.

(* ---------------- C98 ---------------- *)
(* a crash between the two files: neither opening nor creating works afterwards *)
Theorem C98_refuted : exists C K name pass iter rnd s l x, create C K goodDisk name pass iter rnd s = (Ok tt, l) /\ In x l /\
  (forall p, is_ok (openDB C K name p x) = false) /\ forall d p i r, is_ok (fst (create C K d name p i r x)) = false.
Proof.
  exists toy, toyKdf, (str "d"), (str "p"), 1%Z, exRnd, []. eexists. eexists (mset (keyFile (str "d")) [] []). split; [vm_compute; reflexivity|]. split; [left; vm_compute; reflexivity|]. split; [intros p; vm_compute; reflexivity|]. intros d p i r. reflexivity.
Qed.
(* Missing: an interrupted creation has to be cleaned up by hand.  An uninterrupted one can be opened; existing databases are not touched. *)
Theorem C98_opens_partial : forall C K d name pass iter rnd s l, create C K d name pass iter rnd s = (Ok tt, l) -> exists key, lenN key = 32 /\ openDB C K name pass (last l s) = Ok key.
Proof.
  intros C K d name pass iter rnd s l E. unfold create in E. destruct (mget (dbFile name) s); [discriminate|]. destruct (mget (keyFile name) s); [discriminate|]. destruct (generateKeyfile _ _ _ _ _ _ _ _) as [[key|e|] l'] eqn:G; try discriminate. injection E as <-. apply C65_generate in G as [L G]. exists key. split; [exact L|].
  rewrite last_last. apply openDB_iff. split; [apply mget_mset_same|]. rewrite (readKeyfile_cong C K (keyFile name) pass (last l' s)); [exact G|]. apply mget_mset_other. intros Q. symmetry in Q. exact (proj1 (suffix_neq name) Q).
Qed.
Theorem C98_keeps_partial : forall C K d name pass iter rnd s p key, openDB C K name p s = Ok key -> exists e, create C K d name pass iter rnd s = (Err e, []).
Proof. intros C K d name pass iter rnd s p key O. apply openDB_iff in O as [D _]. unfold create. rewrite D. eexists. reflexivity. Qed.
Example C98_ex : is_ok (fst (create toy toyKdf goodDisk (str "d") (str "old") 64000 exRnd [])) = true.
Proof. vm_compute. reflexivity. Qed.

Print Assumptions C65_roundtrip.
Print Assumptions C65_generate.
Print Assumptions C65_noclobber.
Print Assumptions C65_works.
Print Assumptions C66_refuted.
Print Assumptions C66_short_partial.
Print Assumptions C66_accepts.
Print Assumptions C66_never_panics.
Print Assumptions C67_crash.
Print Assumptions C67_database.
Print Assumptions C67_repeat.
Print Assumptions C97_refuted.
Print Assumptions C97_before_partial.
Print Assumptions C98_refuted.
Print Assumptions C98_opens_partial.
Print Assumptions C98_keeps_partial.
