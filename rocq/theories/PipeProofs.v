(* Proofs about PipeModel: the two processes of a fetch together do what fetchLoop says. *)
From Verif Require Import Base Base64Model Base64Proofs CodecModel CodecProofs IdentityModel IdentityProofs SqlModel MsgDBModel CryptoModel
  MixModel MixClientModel CtrlModel PipeModel.
Delimit Scope string_scope with string.
Local Open Scope N_scope.

(* ------------------------------------------------------------------ *)
(* the lines *)
Definition printable (c : N) : Prop := 33 <= c <= 126.
Lemma b64char_printable n : printable (b64char n).
Proof.
  unfold b64char, printable. destruct (n <? 26) eqn:A; [apply N.ltb_lt in A; lia|]. destruct (n <? 52) eqn:B; [apply N.ltb_lt in B; apply N.ltb_ge in A; lia|].
  destruct (n <? 62) eqn:D; [apply N.ltb_lt in D; apply N.ltb_ge in B; lia|]. destruct (n =? 62); lia.
Qed.
Lemma b64enc_printable b : Forall printable (b64enc b).
Proof.
  induction b as [|x|x y|x y z b IH] using list_ind3; cbn [b64enc]; repeat constructor; auto; try apply b64char_printable; unfold padchar; lia.
Qed.
Lemma printable_nospace l : Forall printable l -> Forall (fun c => isSpace c = false) l.
Proof.
  apply Forall_impl. intros c [A B]. unfold isSpace. repeat (rewrite (proj2 (N.eqb_neq _ _)) by lia).
  rewrite (proj2 (N.leb_gt c 13)) by lia. rewrite (proj2 (N.leb_gt 0x2000 c)) by lia. rewrite Bool.andb_false_r. reflexivity.
Qed.
Lemma printable_notab l : Forall printable l -> ~ In 9 l.
Proof. intros H I. rewrite Forall_forall in H. specialize (H _ I). unfold printable in H. lia. Qed.
Lemma decimal_digits u : Forall (fun c => 48 <= c <= 57) (decimal u).
Proof.
  unfold decimal. apply Forall_rev. generalize (S (N.to_nat (N.log2 u))). intros f. revert u.
  induction f as [|f IH]; intros u; cbn [dec_rev]; [constructor|]. destruct (u <? 10) eqn:E.
  - apply N.ltb_lt in E. constructor; [lia|constructor].
  - constructor; [|apply IH]. pose proof (N.mod_lt u 10 ltac:(lia)). lia.
Qed.
Lemma decimal_nonnil u : decimal u <> [].
Proof.
  unfold decimal. cbn [dec_rev]. destruct (u <? 10); cbn [rev]; intros E; [discriminate E|]. destruct (app_eq_nil _ _ E) as [_ E2]. discriminate E2.
Qed.
Lemma decimal_printable u : Forall printable (decimal u).
Proof. eapply Forall_impl; [|apply decimal_digits]. intros c H. unfold printable. cbn in H. lia. Qed.
Lemma formatInt_printable z : Forall printable (formatInt z).
Proof. unfold formatInt. destruct (z <? 0)%Z; [constructor; [unfold printable; lia|]|]; apply decimal_printable. Qed.

Lemma trimLeft_head c s : isSpace c = false -> trimLeftSpace (c :: s) = c :: s.
Proof. cbn [trimLeftSpace]. intros ->. reflexivity. Qed.
Lemma trimSpace_ends c s d s' : c :: s = s' ++ [d] -> isSpace c = false -> isSpace d = false -> trimSpace (c :: s) = c :: s.
Proof.
  intros E A B. unfold trimSpace. rewrite trimLeft_head by exact A. rewrite E. rewrite rev_app_distr. cbn [rev app]. rewrite trimLeft_head by exact B.
  cbn [rev]. rewrite rev_involutive. reflexivity.
Qed.
Lemma fieldOf_line name v : ~ In 9 name -> ~ In 9 v -> fieldOf name (name ++ [9] ++ v) = Some v.
Proof.
  intros A B. unfold fieldOf. change (name ++ [9] ++ v) with (name ++ 9 :: v). rewrite splitOn_app by exact A. rewrite splitOn_none by exact B. rewrite beq_refl. reflexivity.
Qed.
Lemma fieldOf_inv name l v : fieldOf name l = Some v -> l = name ++ [9] ++ v /\ ~ In 9 name /\ ~ In 9 v.
Proof.
  unfold fieldOf. destruct (splitOn 9 l) as [|a [|b [|? ?]]] eqn:E; try (intros H; discriminate H). destruct (beq a name) eqn:F; [|intros H; discriminate H].
  intros H. apply beq_spec in F. subst a. replace v with b by congruence. exact (splitOn_inv2 9 l name b E).
Qed.
Ltac notab := let H := fresh in intros H; cbn in H; repeat (destruct H as [H|H]; [discriminate H|]); exact H.

Lemma last_of {A} (l : list A) : l <> [] -> exists s d, l = s ++ [d].
Proof. intros N. destruct (exists_last N) as (s & d & E). exists s, d. exact E. Qed.

Lemma hasSuffix_last s c suf d : hasSuffix (s ++ [c]) (suf ++ [d]) = true -> c = d.
Proof.
  unfold hasSuffix. intros H. apply andb_prop in H. destruct H as [L E]. apply N.leb_le in L. apply beq_spec in E.
  rewrite !lenN_app in E, L. change (lenN [c]) with 1 in E, L. change (lenN [d]) with 1 in E, L.
  assert (X : dropN (lenN s + 1 - (lenN suf + 1)) (s ++ [c]) = dropN (lenN s - lenN suf) s ++ [c]).
  { replace (lenN s + 1 - (lenN suf + 1)) with (lenN s - lenN suf) by lia.
    rewrite <- (takeN_dropN (lenN s - lenN suf) s) at 2. rewrite <- app_assoc. apply dropN_app. rewrite lenN_takeN. lia. }
  rewrite X in E. apply app_inj_tail in E. exact (proj2 E).
Qed.

Lemma readStatus_none : readStatus lineNone = SNone.
Proof. vm_compute. reflexivity. Qed.
(* the last character of base64 text may be 'd', the last one of the error text; the length tells them apart, and so does the tab *)
Lemma readStatus_id id : Forall printable id -> id <> [] -> hasSuffix (lineID id) (str "accountdb: nothing found") = false -> readStatus (lineID id) = SMsg id.
Proof.
  intros P N HS. assert (T : trimSpace (lineID id) = lineID id).
  { unfold lineID. destruct (last_of id N) as (s & d & E). change (str "MESSAGEID:") with (77 :: tl (str "MESSAGEID:")). cbn [app].
    apply (trimSpace_ends 77 _ d ((77 :: tl (str "MESSAGEID:")) ++ [9] ++ s)); [|reflexivity|].
    - rewrite E. rewrite <- app_assoc. reflexivity.
    - pose proof (printable_nospace id P) as Q. rewrite E in Q. apply Forall_app in Q. destruct Q as [_ Q]. inversion Q. assumption. }
  unfold readStatus. cbv zeta. rewrite T. destruct (beq (lineID id) lineNone) eqn:B.
  { apply beq_spec in B. unfold lineID in B. vm_compute in B. discriminate B. }
  rewrite HS. unfold lineID. rewrite fieldOf_line; [reflexivity|notab|apply printable_notab; exact P].
Qed.
Lemma dropN_suffix {A} n (l : list A) : exists p, l = p ++ dropN n l.
Proof. exists (takeN n l). symmetry. apply takeN_dropN. Qed.
Lemma lineID_suffix id : Forall printable id -> hasSuffix (lineID id) (str "accountdb: nothing found") = false.
Proof.
  intros P. destruct (hasSuffix _ _) eqn:H; [|reflexivity]. exfalso. unfold hasSuffix in H. apply andb_prop in H. destruct H as [L E]. apply beq_spec in E.
  destruct (dropN_suffix (lenN (lineID id) - lenN (str "accountdb: nothing found")) (lineID id)) as [p Q]. rewrite E in Q. clear E L.
  (* a space inside: only possible before the tab, but there is none *)
  assert (I : In 32 (lineID id)). { rewrite Q. apply in_or_app. right. vm_compute. intuition. }
  unfold lineID in I. apply in_app_or in I. destruct I as [I|I]; [vm_compute in I; intuition discriminate|].
  apply in_app_or in I. destruct I as [I|I]; [destruct I as [I|[]]; discriminate I|]. rewrite Forall_forall in P. specialize (P _ I). unfold printable in P. lia.
Qed.
Lemma readStatus_msg id : id <> [] -> readStatus (lineID (b64enc id)) = SMsg (b64enc id).
Proof.
  intros N. apply readStatus_id; [apply b64enc_printable| |apply lineID_suffix; apply b64enc_printable].
  intros E. assert (X : lenN (b64enc id) = 0) by (rewrite E; reflexivity). rewrite lenN_b64enc in X.
  destruct id as [|a r]; [exact (N eq_refl)|]. rewrite lenN_cons in X. pose proof (N.div_str_pos (1 + lenN r + 2) 3). lia.
Qed.
(* an error message of muteproto *)
Definition nothing (e : bytes) : bool := hasSuffix (trimSpace (lineErr e)) (str "accountdb: nothing found").
Lemma trimLeft_suffix s : exists p, s = p ++ trimLeftSpace s.
Proof.
  induction s as [|c s [p IH]]; [exists []; reflexivity|]. cbn [trimLeftSpace]. destruct (isSpace c); [exists (c :: p); cbn; congruence|exists []; reflexivity].
Qed.
Lemma trimSpace_prefix s : isSpace (hd 0 s) = false -> exists q, s = trimSpace s ++ q.
Proof.
  intros H. destruct s as [|c s]; [exists []; reflexivity|]. cbn [hd] in H. unfold trimSpace. rewrite trimLeft_head by exact H.
  destruct (trimLeft_suffix (rev (c :: s))) as [p E]. exists (rev p). rewrite <- rev_app_distr, <- E. symmetry. apply rev_involutive.
Qed.
Lemma readStatus_err e : readStatus (lineErr e) = if nothing e then SNothing else SBad.
Proof.
  unfold readStatus. cbv zeta. destruct (trimSpace_prefix (lineErr e) eq_refl) as [q Q]. fold (nothing e).
  assert (F : forall x r, trimSpace (lineErr e) = x :: r -> x = 109).
  { intros x r E. rewrite E in Q. unfold lineErr in Q. change (str "muteproto: error: ") with (109 :: tl (str "muteproto: error: ")) in Q. cbn [app] in Q. congruence. }
  destruct (beq (trimSpace (lineErr e)) lineNone) eqn:B.
  { apply beq_spec in B. exfalso. unfold lineNone in B. change (str "NONE") with (78 :: tl (str "NONE")) in B. specialize (F _ _ B). discriminate F. }
  destruct (nothing e); [reflexivity|]. destruct (fieldOf _ _) as [v|] eqn:Fo; [|reflexivity]. exfalso.
  destruct (fieldOf_inv _ _ _ Fo) as [E _]. change (str "MESSAGEID:") with (77 :: tl (str "MESSAGEID:")) in E. cbn [app] in E. specialize (F _ _ E). discriminate F.
Qed.
Lemma readLength_line n : n < 2 ^ 64 -> readLength (lineLen n) = Some n.
Proof.
  intros H. unfold readLength, lineLen. rewrite fieldOf_line; [apply parse_dec_decimal; exact H|notab|apply printable_notab; apply decimal_printable].
Qed.
Lemma parseInt_formatInt z : (- 2 ^ 63 <= z < 2 ^ 63)%Z -> parseInt (formatInt z) = Some z.
Proof.
  intros H. unfold formatInt. destruct (z <? 0)%Z eqn:S.
  - apply Z.ltb_lt in S. unfold parseInt. rewrite (proj2 (N.eqb_eq 45 45) eq_refl). cbn [orb]. rewrite parse_dec_decimal by lia.
    rewrite (proj2 (N.leb_le _ _)) by lia. f_equal. lia.
  - apply Z.ltb_ge in S. unfold parseInt. destruct (decimal (Z.to_N z)) as [|c r] eqn:D; [exfalso; exact (decimal_nonnil _ D)|].
    pose proof (decimal_digits (Z.to_N z)) as G. rewrite D in G. inversion G as [|? ? G1 G2]. subst.
    rewrite (proj2 (N.eqb_neq c 45)) by lia. rewrite (proj2 (N.eqb_neq c 43)) by lia. cbn [orb]. rewrite <- D.
    rewrite parse_dec_decimal by lia. rewrite (proj2 (N.ltb_lt _ _)) by lia. f_equal. lia.
Qed.
Lemma readTime_line t : (- 2 ^ 63 <= t < 2 ^ 63)%Z -> readTime (lineTime t) = Some t.
Proof.
  intros H. unfold readTime, lineTime. rewrite fieldOf_line; [apply parseInt_formatInt; exact H|notab|apply printable_notab; apply formatInt_printable].
Qed.

(* ------------------------------------------------------------------ *)
(* the two processes *)
(* what a server can send: a non-empty identifier, a time in 64 bits, a message of less than 2^64 bytes of base64 *)
Definition okMsg (m : fmsg) : Prop := fID m <> [] /\ (- 2 ^ 63 <= fTime m < 2 ^ 63)%Z /\ lenN (b64enc (fMsg m)) < 2 ^ 64.

Section Inv.
  Variable U : Unicode.
  Variables my c : bytes.
  Variable cache : list bytes.
  Variable fin : option bytes.
  Variable cap : N.
  Variable l0 : list fmsg.
  Variable db0 : msgdb.
  Hypothesis OK : Forall okMsg l0.
  Notation fstep := (fstep U my c cache fin cap).
  Notation fsteps := (fsteps U my c cache fin cap).
  Notation loop l b nt db := (fetchLoop U my c cache (map seen l) b nt db).

  Definition knownIn (l : list fmsg) : bool := existsb (fun m => existsb (beq (b64enc (fID m))) cache) l.
  Definition Rel (rest : list fmsg) (nt : option Z) (db : msgdb) : Prop :=
    Forall okMsg rest /\ knownIn l0 = knownIn rest /\ exists k, forall b, loop l0 (k + b) None db0 = loop rest b nt db.
  Definition Ended (db : msgdb) (r : option Z) : Prop := exists k, forall b, loop l0 (k + b) None db0 = (db, r).
  (* the answer of the program, given what fetchLoop answers *)
  Definition answer (r : option Z) : option Z :=
    match r with
    | None => None
    | Some t => if knownIn l0 then Some t
                else match fin with None => Some t | Some e => if nothing e then Some 0%Z else None end
    end.

  Definition enc (m : fmsg) : bytes := b64enc (fMsg m).
  Definition idOf (m : fmsg) : bytes := b64enc (fID m).
  Definition known (m : fmsg) : bool := existsb (beq (idOf m)) cache.
  Definition heldB (h : option bytes) : bytes := match h with Some a => a | None => [] end.
  Definition okHeld (h : option bytes) : Prop := match h with Some a => a <> [] | None => True end.
  Definition exitOk : bool := match fin with None => true | Some _ => false end.

  (* muteproto at the messages [rest], the line it may have written about the first one *)
  Inductive lead (rest : list fmsg) : proto -> list bytes -> Prop :=
  | Ld_loop : lead rest (PLoop rest) []
  | Ld_msg m l : rest = m :: l -> lead rest (PWait m l) [lineID (idOf m)]
  | Ld_end : rest = [] -> lead rest (PExit exitOk) [lineEnd fin].
  (* while message m is transferred: muteproto, commands, status lines written since NEXT, bytes still to write *)
  Inductive trans (m : fmsg) (l : list fmsg) : proto -> list bytes -> list bytes -> bytes -> Prop :=
  | Tr_wait : trans m l (PWait m l) [cmdNext] [] (enc m)
  | Tr_write r : trans m l (PWrite r m l) [] [] r
  | Tr_len : trans m l (PTime m l) [] [lineLen (lenN (enc m))] []
  | Tr_lead p x : lead l p x -> trans m l p [] (lineLen (lenN (enc m)) :: lineTime (fTime m) :: x) [].
  Inductive quitting (m : fmsg) (l : list fmsg) : proto -> list bytes -> Prop :=
  | Qu_wait : quitting m l (PWait m l) [cmdQuit]
  | Qu_exit : quitting m l (PExit true) [].

  Definition idle (s : sys) : Prop := sPipe s = [] /\ sHeld s = None /\ sColl s = KNone /\ sBuf s = [].
  (* the transfer of m seen by the main goroutine: status lines read, collector *)
  Inductive mainT (m : fmsg) (nt : option Z) (db : msgdb) : main -> list bytes -> coll -> bytes -> msgdb -> Prop :=
  | Mt_cache : known m = false -> mainT m nt db (CCache (idOf m) nt) [] KNone [] db
  | Mt_len db1 b : known m = false -> dexec U (DAddCache my c (idOf m)) db = Ok db1 -> mainT m nt db (CLen nt) [] KRun b db1
  | Mt_time db1 b : known m = false -> dexec U (DAddCache my c (idOf m)) db = Ok db1 ->
      mainT m nt db (CTime (lenN (enc m)) nt) [lineLen (lenN (enc m))] KRun b db1
  | Mt_stop db1 b : known m = false -> dexec U (DAddCache my c (idOf m)) db = Ok db1 ->
      mainT m nt db (CStop (lenN (enc m)) (fTime m) nt) [lineLen (lenN (enc m)); lineTime (fTime m)] KRun b db1
  | Mt_done db1 b : known m = false -> dexec U (DAddCache my c (idOf m)) db = Ok db1 ->
      mainT m nt db (CDone (fTime m) nt) [lineLen (lenN (enc m)); lineTime (fTime m)] (KDrain (lenN (enc m))) b db1
  | Mt_store db1 : known m = false -> dexec U (DAddCache my c (idOf m)) db = Ok db1 ->
      mainT m nt db (CStore (fTime m) nt) [lineLen (lenN (enc m)); lineTime (fTime m)] KNone (enc m) db1.

  Inductive inv (s : sys) : Prop :=
  | I_read rest nt : sMain s = CRead nt -> Rel rest nt (sDB s) -> idle s -> sCmd s = [] -> lead rest (sP s) (sStat s) -> inv s
  | I_quit m l nt : sMain s = CQuit (idOf m) nt -> Rel (m :: l) nt (sDB s) -> known m = true -> idle s -> sCmd s = [] -> sP s = PWait m l -> sStat s = [] -> inv s
  | I_rem m l nt : sMain s = CRem (idOf m) nt -> Rel (m :: l) nt (sDB s) -> known m = true -> idle s -> quitting m l (sP s) (sCmd s) -> sStat s = [] -> inv s
  | I_waitq m l nt : sMain s = CWait nt -> Ended (sDB s) (Some (timeOf nt)) -> knownIn l0 = true -> idle s -> quitting m l (sP s) (sCmd s) -> sStat s = [] -> inv s
  | I_next m l nt : sMain s = CNext (idOf m) nt -> Rel (m :: l) nt (sDB s) -> known m = false -> idle s -> sCmd s = [] -> sP s = PWait m l -> sStat s = [] -> inv s
  | I_trans m l nt db done prod r : Rel (m :: l) nt db -> mainT m nt db (sMain s) done (sColl s) (sBuf s) (sDB s) ->
      trans m l (sP s) (sCmd s) prod r -> done ++ sStat s = prod -> okHeld (sHeld s) -> sBuf s ++ heldB (sHeld s) ++ sPipe s ++ r = enc m -> inv s
  | I_wait nt : sMain s = CWait nt -> Rel [] nt (sDB s) -> fin = None -> sP s = PExit true -> inv s
  | I_fin r r' : sMain s = CFin r -> Ended (sDB s) r' -> r = answer r' -> inv s.

  Lemma rel_init : Rel l0 None db0.
  Proof. split; [exact OK|]. split; [reflexivity|]. exists 0%nat. intros b. reflexivity. Qed.
  Lemma inv_init : inv (finit l0 db0).
  Proof. apply (I_read _ l0 None); cbn; auto; [apply rel_init|repeat split|constructor]. Qed.

  Lemma rel_end nt db : Rel [] nt db -> Ended db (Some (timeOf nt)).
  Proof. intros (_ & _ & k & H). exists k. intros b. rewrite H. reflexivity. Qed.
  Lemma rel_end_known nt db : Rel [] nt db -> knownIn l0 = false.
  Proof. intros (_ & K & _). exact K. Qed.
  Lemma ended_none_from rest nt db db' n : Rel rest nt db -> (forall b, loop rest (n + b) nt db = (db', None)) -> Ended db' None.
  Proof. intros (_ & _ & k & H) E. exists (k + n)%nat. intros b. rewrite <- Nat.add_assoc, H. apply E. Qed.
  Lemma is_ok_false {A} (r : res A) : is_ok r = false -> forall x, r <> Ok x.
  Proof. intros H x E. rewrite E in H. discriminate H. Qed.
  Lemma rel_remerr m l nt db : Rel (m :: l) nt db -> known m = true -> is_ok (dexec U (DRemoveCache my c (idOf m)) db) = false -> Ended db None.
  Proof.
    intros R K E. apply (ended_none_from _ _ _ _ 1 R). intros b. cbn [map seen fetchLoop plus]. fold (idOf m). unfold known in K. rewrite K.
    destruct (dexec U (DRemoveCache my c (idOf m)) db) eqn:D; [discriminate E| |]; reflexivity.
  Qed.
  Lemma rel_rem m l nt db db' : Rel (m :: l) nt db -> known m = true -> dexec U (DRemoveCache my c (idOf m)) db = Ok db' ->
    Ended db' (Some (timeOf nt)) /\ knownIn l0 = true.
  Proof.
    intros (_ & Kn & k & H) K D. split.
    - exists (k + 1)%nat. intros b. rewrite <- Nat.add_assoc, H. cbn [map seen fetchLoop plus]. fold (idOf m). unfold known in K. rewrite K, D. reflexivity.
    - rewrite Kn. cbn [knownIn existsb]. unfold known in K. fold (idOf m). rewrite K. reflexivity.
  Qed.
  Lemma rel_cacheerr m l nt db : Rel (m :: l) nt db -> known m = false -> is_ok (dexec U (DAddCache my c (idOf m)) db) = false -> Ended db None.
  Proof.
    intros R K E. apply (ended_none_from _ _ _ _ 2 R). intros b. cbn [map seen fetchLoop plus]. fold (idOf m). unfold known in K. rewrite K.
    destruct (dexec U (DAddCache my c (idOf m)) db) eqn:D; [discriminate E| |]; reflexivity.
  Qed.
  Lemma rel_storeerr m l nt db db1 : Rel (m :: l) nt db -> known m = false -> dexec U (DAddCache my c (idOf m)) db = Ok db1 ->
    is_ok (dexec U (DAddInQueue my c (fTime m) (enc m)) db1) = false -> Ended db1 None.
  Proof.
    intros R K D E. apply (ended_none_from _ _ _ _ 2 R). intros b. cbn [map seen fetchLoop plus]. fold (idOf m) (enc m). unfold known in K. rewrite K, D.
    destruct (dexec U (DAddInQueue my c (fTime m) (enc m)) db1) eqn:D2; [discriminate E| |]; reflexivity.
  Qed.
  Lemma rel_store m l nt db db1 db2 : Rel (m :: l) nt db -> known m = false -> dexec U (DAddCache my c (idOf m)) db = Ok db1 ->
    dexec U (DAddInQueue my c (fTime m) (enc m)) db1 = Ok db2 -> Rel l (firstTime nt (fTime m)) db2.
  Proof.
    intros (O & Kn & k & H) K D D2. split; [inversion O; assumption|]. split.
    - rewrite Kn. cbn [knownIn existsb]. unfold known in K. fold (idOf m). rewrite K. reflexivity.
    - exists (k + 2)%nat. intros b. rewrite <- Nat.add_assoc, H. cbn [map seen fetchLoop plus]. fold (idOf m) (enc m). unfold known in K. rewrite K, D, D2. reflexivity.
  Qed.
  Lemma answer_none : answer None = None. Proof. reflexivity. Qed.
  Lemma rel_head m l nt db : Rel (m :: l) nt db -> okMsg m.
  Proof. intros (O & _). inversion O. assumption. Qed.
  (* every line of the status output is the expected one *)
  Lemma read_id m : okMsg m -> readStatus (lineID (idOf m)) = SMsg (idOf m).
  Proof. intros (A & _). apply readStatus_msg. exact A. Qed.
  Lemma app1_inv (a : list bytes) x b : a ++ [x] = [b] -> a = [] /\ x = b.
  Proof. destruct a as [|y a]; cbn; [intros E; split; congruence|]. destruct a; intros E; discriminate E. Qed.

  Ltac flat := cbn [sP sStat sCmd sPipe sHeld sColl sBuf sMain sDB setP setM] in *.

  Lemma inv_read rest nt p st db s' : Rel rest nt db -> lead rest p st -> fstep (mkSys p st [] [] None KNone [] (CRead nt) db) s' -> inv s'.
  Proof.
    intros R L S. remember (mkSys p st [] [] None KNone [] (CRead nt) db) as s eqn:E. destruct S; subst s; flat; try discriminate.
    - (* end *) subst p. inversion L; subst. apply (I_read _ [] nt); flat; auto; [repeat split|]. apply Ld_end. reflexivity.
    - (* id *) subst p. inversion L; subst. apply (I_read _ (m :: l) nt); flat; auto; [repeat split|]. apply Ld_msg. reflexivity.
    - subst p. inversion L.
    - subst p. inversion L.
    - subst p. inversion L.
    - (* read nothing *) destruct a; [exfalso; auto|discriminate].
    - (* none *) replace nt0 with nt by congruence. inversion L; subst; try discriminate.
      + match goal with H : [_] = _ :: _ |- _ => injection H as <- <- end. rewrite (read_id _ (rel_head _ _ _ _ R)) in H1. discriminate H1.
      + match goal with H : [_] = _ :: _ |- _ => injection H as <- <- end. unfold lineEnd in H1. destruct fin as [e|] eqn:F.
        * rewrite readStatus_err in H1. destruct (nothing e); discriminate H1.
        * apply (I_wait _ nt); flat; auto. unfold exitOk. rewrite F. reflexivity.
    - (* nothing *) inversion L; subst; try discriminate.
      + match goal with H : [_] = _ :: _ |- _ => injection H as <- <- end. rewrite (read_id _ (rel_head _ _ _ _ R)) in H1. discriminate H1.
      + match goal with H : [_] = _ :: _ |- _ => injection H as <- <- end. unfold lineEnd in H1. destruct fin as [e|] eqn:F.
        * rewrite readStatus_err in H1. destruct (nothing e) eqn:N; [|discriminate H1].
          apply (I_fin _ (Some 0%Z) (Some (timeOf nt))); flat; auto; [apply rel_end; exact R|]. unfold answer. rewrite (rel_end_known _ _ R), F, N. reflexivity.
        * rewrite readStatus_none in H1. discriminate H1.
    - (* bad *) inversion L; subst; try discriminate.
      + match goal with H : [_] = _ :: _ |- _ => injection H as <- <- end. rewrite (read_id _ (rel_head _ _ _ _ R)) in H1. discriminate H1.
      + match goal with H : [_] = _ :: _ |- _ => injection H as <- <- end. unfold lineEnd in H1. destruct fin as [e|] eqn:F.
        * rewrite readStatus_err in H1. destruct (nothing e) eqn:N; [discriminate H1|].
          apply (I_fin _ None (Some (timeOf nt))); flat; auto; [apply rel_end; exact R|]. unfold answer. rewrite (rel_end_known _ _ R), F, N. reflexivity.
        * rewrite readStatus_none in H1. discriminate H1.
    - (* known *) replace nt0 with nt by congruence. inversion L; subst; try discriminate.
      + match goal with H : [_] = _ :: _ |- _ => injection H as <- <- end. rewrite (read_id _ (rel_head _ _ _ _ R)) in H1. injection H1 as <-.
        apply (I_quit _ m l nt); flat; auto. repeat split.
      + match goal with H : [_] = _ :: _ |- _ => injection H as <- <- end. unfold lineEnd in H1. destruct fin as [e|] eqn:F;
          [rewrite readStatus_err in H1; destruct (nothing e); discriminate H1|rewrite readStatus_none in H1; discriminate H1].
    - (* new *) replace nt0 with nt by congruence. inversion L; subst; try discriminate.
      + match goal with H : [_] = _ :: _ |- _ => injection H as <- <- end. rewrite (read_id _ (rel_head _ _ _ _ R)) in H1. injection H1 as <-.
        apply (I_next _ m l nt); flat; auto. repeat split.
      + match goal with H : [_] = _ :: _ |- _ => injection H as <- <- end. unfold lineEnd in H1. destruct fin as [e|] eqn:F;
          [rewrite readStatus_err in H1; destruct (nothing e); discriminate H1|rewrite readStatus_none in H1; discriminate H1].
    - (* end of the status output *) subst. inversion L.
  Qed.

  Lemma inv_quit m l nt db s' : Rel (m :: l) nt db -> known m = true -> fstep (mkSys (PWait m l) [] [] [] None KNone [] (CQuit (idOf m) nt) db) s' -> inv s'.
  Proof.
    intros R K S. remember (mkSys _ _ _ _ _ _ _ _ _) as s eqn:E. destruct S; subst s; flat; try discriminate.
    - destruct a; [exfalso; auto|discriminate].
    - match goal with H : CQuit _ _ = CQuit _ _ |- _ => injection H as <- <- end. apply (I_rem _ m l nt); flat; auto; [repeat split|apply Qu_wait].
  Qed.
  Lemma quit_step m l p cmd mn db s' : quitting m l p cmd -> fstep (mkSys p [] cmd [] None KNone [] mn db) s' ->
    (match mn with CRem _ _ => True | CWait _ => True | _ => False end) ->
    (exists p' cmd', quitting m l p' cmd' /\ s' = mkSys p' [] cmd' [] None KNone [] mn db) \/
    (exists mn' db', s' = mkSys p [] cmd [] None KNone [] mn' db' /\
       match mn with
       | CRem id nt => (dexec U (DRemoveCache my c id) db = Ok db' /\ mn' = CWait nt) \/
                       (is_ok (dexec U (DRemoveCache my c id) db) = false /\ mn' = CFin None /\ db' = db)
       | CWait nt => db' = db /\ mn' = CFin (Some (timeOf nt))
       | _ => False end).
  Proof.
    intros Q S M. remember (mkSys p [] cmd [] None KNone [] mn db) as s eqn:E. destruct S; subst s; flat; try discriminate; subst; try (exfalso; exact M); try (inversion Q; discriminate); try (inversion Q; fail).
    - left. inversion Q; subst. eexists _, _. split; [apply Qu_exit|reflexivity].
    - destruct a; [exfalso; auto|discriminate].
    - right. eexists _, _. split; [reflexivity|]. left. split; auto.
    - right. eexists _, _. split; [reflexivity|]. right. repeat split; auto.
    - right. eexists _, _. split; [reflexivity|]. split; auto.
  Qed.
  Lemma inv_next m l nt db s' : Rel (m :: l) nt db -> known m = false -> fstep (mkSys (PWait m l) [] [] [] None KNone [] (CNext (idOf m) nt) db) s' -> inv s'.
  Proof.
    intros R K S. remember (mkSys _ _ _ _ _ _ _ _ _) as s eqn:E. destruct S; subst s; flat; try discriminate.
    - destruct a; [exfalso; auto|discriminate].
    - match goal with H : CNext _ _ = CNext _ _ |- _ => injection H as <- <- end. apply (I_trans _ m l nt db [] [] (enc m)); flat; auto.
      + apply Mt_cache. exact K.
      + apply Tr_wait.
      + exact I.
  Qed.

  Lemma held_nil h : okHeld h -> heldB h = [] -> h = None.
  Proof. destruct h as [a|]; cbn; [|reflexivity]. intros A B. contradiction. Qed.
  Lemma full_prefix (a x e : bytes) : a ++ x = e -> lenN e <= lenN a -> a = e /\ x = [].
  Proof.
    intros E L. assert (X : lenN x = 0). { rewrite <- E, lenN_app in L. lia. } destruct x as [|y x]; [|rewrite lenN_cons in X; lia].
    rewrite app_nil_r in E. auto.
  Qed.
  Lemma inv_trans m l nt db p st cmd pipe held k buf mn db' done prod r s' :
    Rel (m :: l) nt db -> mainT m nt db mn done k buf db' -> trans m l p cmd prod r -> done ++ st = prod -> okHeld held ->
    buf ++ heldB held ++ pipe ++ r = enc m -> fstep (mkSys p st cmd pipe held k buf mn db') s' -> inv s'.
  Proof.
    intros R M T P OH B S. pose proof (rel_head _ _ _ _ R) as OKm. remember (mkSys p st cmd pipe held k buf mn db') as s eqn:E.
    destruct S; subst s; flat; subst; try (inversion M; fail).
    - (* end *) inversion T; subst. match goal with H : lead _ _ _ |- _ => inversion H; subst end.
      eapply (I_trans _ _ _ nt db); flat; [exact R|exact M| |rewrite app_assoc; reflexivity|exact OH|exact B].
      match goal with H : _ = done ++ st |- _ => rewrite <- H end. cbn [app]. apply Tr_lead. apply Ld_end. reflexivity.
    - inversion T; subst. match goal with H : lead _ _ _ |- _ => inversion H; subst end.
      eapply (I_trans _ _ _ nt db); flat; [exact R|exact M| |rewrite app_assoc; reflexivity|exact OH|exact B].
      match goal with H : _ = done ++ st |- _ => rewrite <- H end. cbn [app]. apply Tr_lead. apply (Ld_msg _ m0 l1). reflexivity.
    - (* next *) inversion T; subst. eapply (I_trans _ _ _ nt db); flat; [exact R|exact M| |reflexivity|exact OH|exact B].
      match goal with H : _ = done ++ st |- _ => rewrite <- H end. apply Tr_write.
    - (* quit *) inversion T.
    - (* write *) inversion T; subst.
      + eapply (I_trans _ _ _ nt db); flat; [exact R|exact M| |reflexivity|exact OH|].
        * match goal with H : _ = done ++ st |- _ => rewrite <- H end. apply Tr_write.
        * rewrite <- B. rewrite <- !app_assoc. reflexivity.
      + match goal with H : lead _ _ _ |- _ => inversion H end.
    - (* length *) inversion T; subst.
      + eapply (I_trans _ _ _ nt db); flat; [exact R|exact M| |rewrite app_assoc; reflexivity|exact OH|exact B].
        match goal with H : _ = done ++ st |- _ => rewrite <- H end. apply Tr_len.
      + match goal with H : lead _ _ _ |- _ => inversion H end.
    - (* time *) inversion T; subst.
      + eapply (I_trans _ _ _ nt db); flat; [exact R|exact M| |rewrite app_assoc; reflexivity|exact OH|exact B].
        match goal with H : _ = done ++ st |- _ => rewrite <- H end. cbn [app]. apply Tr_lead. apply Ld_loop.
      + match goal with H : lead _ _ _ |- _ => inversion H end.
    - (* read *) eapply (I_trans _ _ _ nt db); flat; [exact R|exact M|exact T|reflexivity| |].
      + cbn. assumption.
      + rewrite <- B. cbn [heldB]. rewrite <- !app_assoc. reflexivity.
    - (* pass on *) eapply (I_trans _ _ _ nt db); flat; [exact R| |exact T|reflexivity|exact I|].
      + inversion M; subst; try contradiction.
        * apply Mt_len; assumption.
        * apply Mt_time; assumption.
        * apply Mt_stop; assumption.
        * apply Mt_done; assumption.
      + rewrite <- B. cbn [heldB]. rewrite <- !app_assoc. reflexivity.
    - (* cache *) inversion M; subst. eapply (I_trans _ _ _ nt0 db'); flat; [exact R| |exact T|reflexivity|exact OH|exact B]. apply Mt_len; assumption.
    - inversion M; subst. eapply I_fin; flat; [reflexivity| |symmetry; exact answer_none]. eapply rel_cacheerr; eauto.
    - (* LENGTH *) inversion M; subst. cbn [app] in T. assert (ln = lineLen (lenN (enc m))) as ->.
      { inversion T; subst; reflexivity. }
      rewrite (readLength_line (lenN (enc m)) (proj2 (proj2 OKm))) in H1. injection H1 as <-.
      apply (I_trans _ m l nt0 db [lineLen (lenN (enc m))] (lineLen (lenN (enc m)) :: st0) r); flat; auto. apply Mt_time; assumption.
    - inversion M; subst. cbn [app] in T. assert (ln = lineLen (lenN (enc m))) as -> by (inversion T; subst; reflexivity).
      rewrite (readLength_line (lenN (enc m)) (proj2 (proj2 OKm))) in H1. discriminate H1.
    - inversion M; subst. cbn [app] in T. inversion T.
    - (* RECEIVETIME *) inversion M; subst. cbn [app] in T. assert (ln = lineTime (fTime m)) as ->.
      { inversion T; subst; reflexivity. }
      rewrite (readTime_line _ (proj1 (proj2 OKm))) in H1. injection H1 as <-.
      apply (I_trans _ m l nt0 db [lineLen (lenN (enc m)); lineTime (fTime m)] (lineLen (lenN (enc m)) :: lineTime (fTime m) :: st0) r); flat; auto. apply Mt_stop; assumption.
    - inversion M; subst. cbn [app] in T. assert (ln = lineTime (fTime m)) as -> by (inversion T; subst; reflexivity).
      rewrite (readTime_line _ (proj1 (proj2 OKm))) in H1. discriminate H1.
    - inversion M; subst. cbn [app] in T. inversion T.
    - (* stop *) inversion M; subst. eapply (I_trans _ _ _ nt0 db); flat; [exact R| |exact T|reflexivity|exact OH|exact B]. apply Mt_done; assumption.
    - (* done *) inversion M; subst. destruct (full_prefix _ _ _ B H1) as [B1 B2]. subst buf.
      eapply (I_trans _ _ _ nt0 db); flat; [exact R| |exact T|reflexivity|exact OH|exact B]. apply Mt_store; assumption.
    - (* store *) inversion M; subst. destruct (full_prefix _ _ _ B (N.le_refl _)) as [_ B2].
      apply app_eq_nil in B2. destruct B2 as [B2 B3]. apply app_eq_nil in B3. destruct B3 as [-> ->]. rewrite (held_nil _ OH B2). cbn [app] in T.
      inversion T; subst. eapply (I_read _ l); flat; [reflexivity|eapply rel_store; eauto|repeat split|reflexivity|assumption].
    - inversion M; subst. eapply I_fin; flat; [reflexivity| |symmetry; exact answer_none]. eapply rel_storeerr; eauto.
  Qed.

  Ltac unidle H := let A := fresh in let B := fresh in let C := fresh in let D := fresh in destruct H as (A & B & C & D); flat; subst.
  Lemma inv_step s s' : inv s -> fstep s s' -> inv s'.
  Proof.
    intros I S. destruct s as [p st cmd pipe held k buf mn db]. destruct I; flat; subst.
    - unidle H1. eapply inv_read; eauto.
    - unidle H2. eapply inv_quit; eauto.
    - unidle H2. destruct (quit_step _ _ _ _ _ _ _ H3 S I) as [(p' & cmd' & Q & ->)|(mn' & db' & -> & [[D ->]|(D & -> & ->)])].
      + apply (I_rem _ m l nt); flat; auto. repeat split.
      + destruct (rel_rem _ _ _ _ _ H0 H1 D) as [A B]. apply (I_waitq _ m l nt); flat; auto. repeat split.
      + eapply I_fin; flat; [reflexivity| |symmetry; exact answer_none]. eapply rel_remerr; eauto.
    - unidle H2. destruct (quit_step _ _ _ _ _ _ _ H3 S I) as [(p' & cmd' & Q & ->)|(mn' & db' & -> & [-> ->])].
      + apply (I_waitq _ m l nt); flat; auto. repeat split.
      + eapply I_fin; flat; [reflexivity|exact H0|]. unfold answer. rewrite H1. reflexivity.
    - unidle H2. eapply inv_next; eauto.
    - eapply inv_trans; eauto.
    - (* waiting for the exit *) remember (mkSys _ _ _ _ _ _ _ _ _) as s eqn:E.
      destruct S; subst s; flat; subst; try discriminate; try (apply (I_wait _ nt); flat; auto; fail).
      replace nt0 with nt by congruence. eapply I_fin; flat; [reflexivity|apply rel_end; exact H0|]. unfold answer. rewrite (rel_end_known _ _ H0), H1. reflexivity.
    - remember (mkSys _ _ _ _ _ _ _ _ _) as s eqn:E. destruct S; subst s; flat; subst; try discriminate; eapply I_fin; flat; eauto.
  Qed.
  Lemma inv_steps s : fsteps (finit l0 db0) s -> inv s.
  Proof.
    intros H. remember (finit l0 db0) as s0 eqn:E. induction H; [subst; apply inv_init|]. eapply inv_step; eauto.
  Qed.

  (* at every moment the database is one fetchLoop leaves when interrupted *)
  Lemma loop_zero rest nt db : fst (loop rest 0 nt db) = db.
  Proof. destruct rest as [|m l]; [reflexivity|]. cbn [map seen fetchLoop]. destruct (existsb _ _); reflexivity. Qed.
  Lemma rel_db rest nt db : Rel rest nt db -> exists b, fst (loop l0 b None db0) = db.
  Proof. intros (_ & _ & k & H). exists (k + 0)%nat. rewrite H. apply loop_zero. Qed.
  Lemma ended_db db r : Ended db r -> exists b, fst (loop l0 b None db0) = db.
  Proof. intros (k & H). exists (k + 0)%nat. rewrite H. reflexivity. Qed.
  Lemma inv_db s : inv s -> exists b, fst (loop l0 b None db0) = sDB s.
  Proof.
    intros I. destruct I; try (eapply rel_db; eassumption); try (eapply ended_db; eassumption).
    inversion H0; subst.
    1: { eapply rel_db. eassumption. }
    all: destruct H as (_ & _ & k & Hk); exists (k + 1)%nat; rewrite Hk; cbn [map seen fetchLoop];
         match goal with H : known ?x = false |- _ => fold (idOf x); unfold known in H; rewrite H end;
         match goal with H : dexec _ _ _ = Ok _ |- _ => rewrite H end; reflexivity.
  Qed.

  (* no deadlock *)
  Hypothesis CAP : 1 <= cap.
  Definition finished (s : sys) : Prop := exists r, sMain s = CFin r.
  Lemma ok_dec {A} (r : res A) : (exists x, r = Ok x) \/ is_ok r = false.
  Proof. destruct r; [left; eauto|right; reflexivity|right; reflexivity]. Qed.
  Lemma inv_progress s : inv s -> finished s \/ exists s', fstep s s'.
  Proof.
    intros I. destruct s as [p st cmd pipe held k buf mn db]. destruct I; flat; subst.
    - (* reading the first line *) right. inversion H3; subst.
      + destruct rest as [|m l]; eexists; [eapply F_end|eapply F_id]; reflexivity.
      + pose proof (read_id _ (rel_head _ _ _ _ H0)) as E. destruct (existsb (beq (idOf m)) cache) eqn:K; eexists; [eapply M_known|eapply M_new]; flat; eauto.
      + destruct (readStatus (lineEnd fin)) as [| |id|] eqn:E.
        * eexists. eapply M_none; flat; eauto.
        * eexists. eapply M_nothing; flat; eauto.
        * destruct (existsb (beq id) cache) eqn:K; eexists; [eapply M_known|eapply M_new]; flat; eauto.
        * eexists. eapply M_bad; flat; eauto.
    - right. eexists. eapply M_quit; reflexivity.
    - right. destruct (ok_dec (dexec U (DRemoveCache my c (idOf m)) db)) as [[x E]|E]; eexists; [eapply M_rem|eapply M_rem_err]; flat; eauto.
    - right. inversion H3; subst; eexists; [eapply F_quit|eapply M_wait]; flat; eauto.
    - right. eexists. eapply M_next; reflexivity.
    - right. pose proof (rel_head _ _ _ _ H) as OKm. inversion H0; subst.
      + destruct (ok_dec (dexec U (DAddCache my c (idOf m)) db)) as [[x E]|E]; eexists; [eapply M_cache|eapply M_cache_err]; flat; eauto.
      + (* waiting for the length *) destruct held as [a|]; [eexists; eapply R_pass; flat; eauto|].
        destruct pipe as [|x pipe]; [|eexists; eapply (R_read _ _ _ _ _ _ _ [x] pipe); flat; [reflexivity|reflexivity|discriminate|change (lenN [x]) with 1; lia]].
        cbn [app] in H1. inversion H1; subst.
        * eexists. eapply F_next; flat; reflexivity.
        * destruct r as [|x r]; [eexists; eapply F_len; flat; reflexivity|].
          eexists. eapply (F_write _ _ _ _ _ _ _ [x] r); flat; [reflexivity|discriminate|change (lenN ([] ++ [x])) with 1; exact CAP].
        * eexists. eapply M_len; flat; [reflexivity|reflexivity|]. exact (readLength_line (lenN (enc m)) (proj2 (proj2 OKm))).
        * eexists. eapply M_len; flat; [reflexivity|reflexivity|]. exact (readLength_line (lenN (enc m)) (proj2 (proj2 OKm))).
      + cbn [app] in H1. inversion H1; subst.
        * eexists. eapply F_time; flat; reflexivity.
        * eexists. eapply M_time; flat; [reflexivity|reflexivity|]. exact (readTime_line _ (proj1 (proj2 OKm))).
      + eexists. eapply M_stop; flat; reflexivity.
      + (* collecting *) cbn [app] in H1. inversion H1; subst. destruct (N.le_gt_cases (lenN (enc m)) (lenN buf)) as [L|L].
        * eexists. eapply M_done; flat; eauto.
        * destruct held as [a|]; [eexists; eapply R_pass; flat; eauto|]. destruct pipe as [|x pipe].
          { exfalso. cbn [heldB app] in H4. rewrite app_nil_r in H4. rewrite H4 in L. lia. }
          eexists; eapply (R_read _ _ _ _ _ _ _ [x] pipe); flat; [reflexivity|reflexivity|discriminate|change (lenN [x]) with 1; lia].
      + match goal with H : dexec U (DAddCache _ _ _) _ = Ok ?x |- _ => destruct (ok_dec (dexec U (DAddInQueue my c (fTime m) (enc m)) x)) as [[x' E]|E] end;
          eexists; [eapply M_store|eapply M_store_err]; flat; eauto.
    - right. eexists. eapply M_wait; reflexivity.
    - left. exists (answer r'). reflexivity.
  Qed.
End Inv.

(* ------------------------------------------------------------------ *)
(* every step uses something up *)
Fixpoint wLoop (l : list fmsg) : N := match l with [] => 12 | m :: l' => 40 + 3 * lenN (b64enc (fMsg m)) + wLoop l' end.
Definition wProto (p : proto) : N :=
  match p with
  | PLoop l => wLoop l | PWait m l => 29 + 3 * lenN (b64enc (fMsg m)) + wLoop l | PWrite r m l => 28 + 3 * lenN r + wLoop l
  | PTime m l => 15 + wLoop l | PExit _ => 0
  end.
Definition wMain (m : main) : N :=
  match m with
  | CRead _ => 3 | CQuit _ _ => 8 | CRem _ _ => 4 | CNext _ _ => 8 | CCache _ _ => 4 | CLen _ => 3 | CTime _ _ => 3 | CStop _ _ _ => 6 | CDone _ _ => 5
  | CStore _ _ => 4 | CWait _ => 1 | CFin _ => 0
  end.
Definition weight (s : sys) : N :=
  wProto (sP s) + 10 * lenN (sStat s) + lenN (sCmd s) + 2 * lenN (sPipe s) + match sHeld s with Some a => lenN a | None => 0 end + wMain (sMain s).
Lemma nonnil_len {A} (a : list A) : a <> [] -> 1 <= lenN a.
Proof. destruct a; [contradiction|]. intros _. rewrite lenN_cons. lia. Qed.
Definition nohold (s : sys) : Prop := match sHeld s with Some a => a <> [] | None => True end.
Lemma nohold_step U my c cache fin cap s s' : nohold s -> fstep U my c cache fin cap s s' -> nohold s'.
Proof. intros H S. destruct S; unfold nohold in *; cbn; auto. Qed.
Lemma weight_step U my c cache fin cap s s' : nohold s -> fstep U my c cache fin cap s s' -> weight s' < weight s.
Proof.
  intros NH S. unfold nohold in NH.
  destruct S; destruct s as [pp sst ccmd ppipe hheld kk bbuf mmn ddb]; unfold weight; cbn [sP sStat sCmd sPipe sHeld sColl sBuf sMain sDB setP setM] in *; subst; cbn [wProto wMain wLoop];
    rewrite ?lenN_app, ?lenN_cons, ?lenN_nil; try lia.
  all: pose proof (nonnil_len a); rewrite ?lenN_app in *; intuition lia.
Qed.
