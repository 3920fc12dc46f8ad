(* C198: mutecrypt and muteproto understand the command lines that mutectrl builds for them. *)
From Verif Require Import Base IdentityModel IdentityProofs CodecModel MixClientModel PipeModel PipeProofs PropsPipe DialogModel PropsDialog CliModel.
Local Open Scope N_scope.

(* ------------------------------------------------------------------ *)
(* The specification: which command, with which global options and which options of the command, mutectrl means.  Every option
   that is not listed is not to be set. *)
Fixpoint givenIn (n : list N) (l : list (list N * list N)) : option (list N) :=
  match l with [] => None | (k, v) :: l' => if beq k n then Some v else givenIn n l' end.
Definition understood (a : cliApp) (args path : list (list N)) (gs fs : list (list N * list N)) : Prop :=
  exists c, cliRun a args = Ok c /\ kCmd c = path /\
    (forall n, flagVal n (kGlobals c) = givenIn n gs) /\ (forall n, flagVal n (kFlags c) = givenIn n fs).
Definition wantedCmd (r : request) : list (list N) :=
  match r with
  | RCreate _ _ => [str "db"; str "create"] | RRekey _ => [str "db"; str "rekey"] | RVacuum _ => [str "db"; str "vacuum"]
  | RVersion => [str "db"; str "version"] | REncrypt _ _ _ _ => [str "encrypt"] | RDecrypt => [str "decrypt"]
  | RSearch _ _ => [str "hashchain"; str "search"] | RDelete _ => [str "uid"; str "delete"]
  | RSync _ _ => [str "hashchain"; str "sync"] | RValidate _ _ => [str "hashchain"; str "validate"] | RLoop _ => []
  | PCreate _ _ _ _ => [str "create"] | PDeliver => [str "deliver"] | PFetch _ _ => [str "fetch"]
  end.
Definition keyServer (host : list N) : list (list N * list N) :=
  match host with [] => [] | _ => [(str "keyhost", host); (str "keyport", str ":8080")] end.
Definition wantedGlobals (e : genv) (r : request) : list (list N * list N) :=
  (match r with RCreate fd _ => [(str "output-fd", formatInt fd); (str "passphrase-fd", str "stdin")]
              | RRekey _ => [(str "passphrase-fd", str "stdin")] | _ => [] end) ++
  [(str "homedir", gHome e); (str "loglevel", gLevel e); (str "logdir", gDir e)] ++
  (match r with RCreate _ _ => if gConsole e then [(str "logconsole", str "true")] else []
              | RSearch _ h | RSync _ h | RValidate _ h | RLoop h => keyServer h | _ => [] end).
Definition wantedFlags (r : request) : list (list N * list N) :=
  match r with
  | RCreate _ it | RRekey it => [(str "iterations", formatInt it)]
  | REncrypt from to nym sign => [(str "from", from); (str "to", to); (str "nymaddress", nym)] ++ (if sign then [(str "sign", str "true")] else [])
  | RSearch id _ => [(str "search-only", str "true"); (str "id", id)]
  | RDelete id => [(str "id", id); (str "force", str "true")]
  | RSync d _ | RValidate d _ => [(str "domain", d)]
  | PCreate mn mx token nym => [(str "mindelay", formatInt mn); (str "maxdelay", formatInt mx); (str "token", token); (str "nymaddress", nym)]
  | PFetch server t => [(str "server", server); (str "last-message-time", formatInt t)]
  | _ => []
  end.
(* the numbers have the Go types int, int32 and int64 *)
Definition goInt (z : Z) : Prop := (- 2 ^ 63 <= z < 2 ^ 63)%Z.
Definition typed (r : request) : Prop :=
  match r with
  | RCreate fd it => (0 <= fd < 2 ^ 63)%Z /\ goInt it | RRekey it => goInt it
  | PCreate mn mx _ _ => (- 2 ^ 31 <= mn < 2 ^ 31)%Z /\ (- 2 ^ 31 <= mx < 2 ^ 31)%Z | PFetch _ t => goInt t | _ => True
  end.
Definition noMode (r : request) : Prop := match r with RVacuum m => m = [] | _ => True end.

(* ---- proofs ---- *)
Fixpoint distinctKeys (l : list (list N * list N)) : Prop :=
  match l with [] => True | (k, _) :: l' => Forall (fun f => beq k (fst f) = false) l' /\ distinctKeys l' end.
Lemma fold_other n l : forall acc, Forall (fun f : list N * list N => beq (fst f) n = false) l ->
  fold_left (fun acc f => if beq (fst f) n then Some (snd f) else acc) l acc = acc.
Proof. induction l as [|f l IH]; intros acc H; [reflexivity|]. inversion_clear H as [|? ? A B]. cbv beta in A. cbn [fold_left]. unfold bytes in *. rewrite A. apply IH, B. Qed.
Lemma flagVal_given n l : distinctKeys l -> flagVal n l = givenIn n l.
Proof.
  unfold flagVal. enough (G : forall acc, distinctKeys l -> fold_left (fun acc f => if beq (fst f) n then Some (snd f) else acc) l acc =
    match givenIn n l with Some v => Some v | None => acc end).
  { intros D. rewrite (G None D). destruct (givenIn n l); reflexivity. }
  induction l as [|[k v] l IH]; intros acc D; [reflexivity|]. destruct D as [A D]. cbn [fold_left fst snd givenIn].
  destruct (beq k n) eqn:E.
  - apply beq_spec in E. subst k. rewrite fold_other; [reflexivity|]. eapply Forall_impl; [|exact A]. cbn. intros f F. rewrite beq_sym. exact F.
  - apply IH, D.
Qed.
Definition explicit (e : genv) (r : request) : cliCall := mkCall (wantedGlobals e r) (wantedCmd r) (wantedFlags r).
Definition numbers (r : request) : list (list N) :=
  match r with RCreate _ it | RRekey it => [formatInt it] | PCreate mn mx _ _ => [formatInt mn; formatInt mx] | _ => [] end.
Lemma run_P (P : list N -> bool) e r : noMode r -> Forall (fun v => P v = true) (numbers r) ->
  cliRunW P (program r) (argsOf e r) = Ok (explicit e r).
Proof.
  intros M H. destruct e as [hm lv dr con].
  destruct r as [fd it|it|m| |f t n sg| |i h|i|d h|d h|h|mn mx tk nm| |sv t]; cbn [numbers noMode] in *; unfold argsOf, explicit, wantedGlobals, wantedFlags, common.
  - inversion_clear H as [|? ? A _]. revert A. generalize (formatInt it) (formatInt fd). intros v w A. destruct con; vm_compute; vm_compute in A; rewrite A; reflexivity.
  - inversion_clear H as [|? ? A _]. revert A. generalize (formatInt it). intros v A. vm_compute. vm_compute in A. rewrite A. reflexivity.
  - subst m. vm_compute. reflexivity.
  - vm_compute. reflexivity.
  - destruct sg; vm_compute; reflexivity.
  - vm_compute. reflexivity.
  - destruct h as [|x h]; vm_compute; reflexivity.
  - vm_compute. reflexivity.
  - destruct h as [|x h]; vm_compute; reflexivity.
  - destruct h as [|x h]; vm_compute; reflexivity.
  - destruct h as [|x h]; vm_compute; reflexivity.
  - inversion_clear H as [|? ? A B]. inversion_clear B as [|? ? C _]. revert A C. generalize (formatInt mn) (formatInt mx). intros v w A C.
    vm_compute. vm_compute in A, C. rewrite A, C. reflexivity.
  - vm_compute. reflexivity.
  - generalize (formatInt t). intros v. vm_compute. reflexivity.
Qed.
Lemma isInt_format z : goInt z -> isInt (formatInt z) = true.
Proof. intros H. unfold isInt. rewrite parseInt_formatInt by exact H. reflexivity. Qed.
Lemma run_ok e r : typed r -> noMode r -> cliRun (program r) (argsOf e r) = Ok (explicit e r).
Proof.
  intros T M. apply run_P; [exact M|]. destruct r; cbn [numbers typed] in *; try constructor.
  - apply isInt_format, T.
  - constructor.
  - apply isInt_format, T.
  - constructor.
  - apply isInt_format. unfold goInt. lia.
  - apply Forall_cons; [|constructor]. apply isInt_format. unfold goInt. lia.
Qed.
Lemma keys_ok e r : distinctKeys (wantedGlobals e r) /\ distinctKeys (wantedFlags r).
Proof.
  destruct e as [hm lv dr con].
  split; destruct r as [fd it|it|m| |f t n sg| |i h|i|d h|d h|h|mn mx tk nm| |sv t]; unfold wantedGlobals, wantedFlags, keyServer; cbn [gConsole];
    try (destruct con); try (destruct sg); try (destruct h as [|x h]); cbn [app distinctKeys fst]; repeat split; repeat apply Forall_cons; try apply Forall_nil; vm_compute; reflexivity.
Qed.

(* ------------------------------------------------------------------ *)
(* C198.  Every process that mutectrl starts, except for the rebuilding of the key database with a mode, runs the intended command
   with exactly the intended options, whatever their values are: also empty ones and ones that begin with a dash. *)
Theorem C198_partial : forall e r, typed r -> noMode r ->
  understood (program r) (argsOf e r) (wantedCmd r) (wantedGlobals e r) (wantedFlags r).
Proof.
  intros e r T M. exists (explicit e r). destruct (keys_ok e r) as [A B].
  split; [apply run_ok; assumption|]. split; [reflexivity|]. split; intros n; apply flagVal_given; assumption.
Qed.
(* the number read is the number meant *)
Theorem C198_numbers : forall e r c, typed r -> cliRun (program r) (argsOf e r) = Ok c ->
  match r with
  | RCreate fd it => ctxInt (str "iterations") c = Some it /\ parseFDOption (kGlobals c) (str "output-fd") = Some fd
  | RRekey it => ctxInt (str "iterations") c = Some it
  | PCreate mn mx _ _ => ctxInt (str "mindelay") c = Some mn /\ ctxInt (str "maxdelay") c = Some mx
  | PFetch _ t => ctxInt (str "last-message-time") c = Some t
  | _ => True
  end.
Proof.
  assert (R : forall n v l z, distinctKeys l -> givenIn n l = Some v -> parseInt v = Some z -> forall g p, ctxInt n (mkCall g p l) = Some z).
  { intros n v l z D G P g p. unfold ctxInt. cbn [kFlags]. rewrite flagVal_given, G by exact D. exact P. }
  intros e r c T H. destruct r as [fd it|it|m| |f t n sg| |i h|i|d h|d h|h|mn mx tk nm| |sv t]; try exact I;
    rewrite run_ok in H by (exact T || exact I); apply (f_equal (fun x => match x with Ok y => y | _ => c end)) in H; cbv beta iota in H; subst c;
    cbn [typed] in T; unfold explicit.
  - destruct T as [T1 T2]. split.
    + eapply R; [apply (keys_ok e (RCreate fd it))|reflexivity|apply parseInt_formatInt, T2].
    + unfold parseFDOption. cbn [kGlobals]. rewrite flagVal_given by apply (keys_ok e (RCreate fd it)).
      change (givenIn (str "output-fd") (wantedGlobals e (RCreate fd it))) with (Some (formatInt fd)). cbv iota zeta.
      assert (X : forall s : list N, parseInt s = None -> beq (formatInt fd) s = false).
      { intros s N. apply beq_neq. intros E. rewrite <- E, parseInt_formatInt in N by lia. discriminate N. }
      rewrite !X by (vm_compute; reflexivity). apply parseInt_formatInt. lia.
  - eapply R; [apply (keys_ok e (RRekey it))|reflexivity|apply parseInt_formatInt, T].
  - split; (eapply R; [apply (keys_ok e (PCreate mn mx tk nm))|reflexivity|apply parseInt_formatInt; lia]).
  - eapply R; [apply (keys_ok e (PFetch sv t))|reflexivity|apply parseInt_formatInt, T].
Qed.
(* what mutectrl hands over is where the program looks for it: passphrase or key, message, command lines *)
Definition optionFor (s : stream) : list N := match s with Secret => str "passphrase-fd" | Data => str "input-fd" | Lines => str "command-fd" end.
(* what the commands read: mutecrypt opens the key database for all of them, muteproto fetch signs with the private key *)
Definition needed (r : request) : list stream :=
  match r with
  | REncrypt _ _ _ _ | RDecrypt => [Secret; Data] | PCreate _ _ _ _ | PDeliver => [Data]
  | RLoop _ | PFetch _ _ => [Secret; Lines] | _ => [Secret]
  end.
Theorem C198_streams : forall e r c s, typed r -> cliRun (program r) (argsOf e r) = Ok c -> In s (needed r) ->
  exists fd, parseFDOption (kGlobals c) (optionFor s) = Some fd /\ heldBy r fd = Some s.
Proof.
  intros e r c s T H I.
  assert (Q : kGlobals c = wantedGlobals e r).
  { destruct r as [fd it|it|m| |f t n sg| |i h|i|d h|d h|h|mn mx tk nm| |sv t].
    3: { destruct m as [|x m]; [|vm_compute in H; discriminate H]. rewrite run_ok in H by (exact T || reflexivity).
         apply (f_equal (fun x => match x with Ok y => y | _ => c end)) in H; cbv beta iota in H; subst c; reflexivity. }
    all: rewrite run_ok in H by (exact T || exact Logic.I);
      apply (f_equal (fun x => match x with Ok y => y | _ => c end)) in H; cbv beta iota in H; subst c; reflexivity. }
  rewrite Q. clear H Q c. unfold parseFDOption. rewrite flagVal_given by apply keys_ok. destruct e as [hm lv dr con].
  destruct r as [fd it|it|m| |f t n sg| |i h|i|d h|d h|h|mn mx tk nm| |sv t]; cbn [needed In] in I;
    repeat match goal with
    | X : _ \/ _ |- _ => destruct X as [X|X]
    | X : Some _ = Some _ |- _ => apply (f_equal (fun x => match x with Some y => y | None => s end)) in X; cbv beta iota in X
    | X : None = Some _ |- _ => discriminate X
    | X : False |- _ => destruct X
    end; subst s; cbn [optionFor];
    try (generalize (formatInt fd); intros fdt); try (destruct h as [|x h]); try (destruct con); try (destruct sg);
    first [exists 0%Z; split; vm_compute; reflexivity | exists 3%Z; split; vm_compute; reflexivity | exists 4%Z; split; vm_compute; reflexivity].
Qed.

(* The command lines for the loop of mutecrypt: one line, one command, the values meant.  Partial: for values that are not empty
   and without white space, as are mapped identities, domains, addresses and tokens in base64. *)
Definition solid (v : bytes) : Prop := v <> [] /\ noSpace v.
Definition lineCmd (l : lineReq) : list (list N) :=
  match l with
  | LGenerate _ => [str "uid"; str "generate"] | LCaps _ _ => [str "caps"; str "show"] | LRegister _ _ => [str "uid"; str "register"]
  | LDelete _ => [str "uid"; str "delete"] | LAdd _ _ _ _ => [str "keyinit"; str "add"] | LQuit => [str "quit"]
  end.
Definition lineFlags (l : lineReq) : list (list N * list N) :=
  match l with
  | LGenerate id => [(str "id", id)]
  | LCaps d h => (str "domain", d) :: (match h with [] => [] | _ => [(str "host", h)] end)
  | LRegister id tk => [(str "id", id); (str "token", tk)]
  | LDelete id => [(str "force", str "true"); (str "id", id)]
  | LAdd id mix nym tk => [(str "id", id); (str "mixaddress", mix); (str "nymaddress", nym); (str "token", tk)]
  | LQuit => []
  end.
Definition solidLine (l : lineReq) : Prop :=
  match l with
  | LGenerate id | LDelete id => solid id | LCaps d h => solid d /\ noSpace h | LRegister id tk => solid id /\ solid tk
  | LAdd id mix nym tk => solid id /\ solid mix /\ solid nym /\ solid tk | LQuit => True
  end.
Definition lineWords (l : lineReq) : list bytes :=
  match l with
  | LGenerate id => [str "uid"; str "generate"; str "--id"; id]
  | LCaps d h => [str "caps"; str "show"; str "--domain"; d] ++ (match h with [] => [] | _ => [str "--host"; h] end)
  | LRegister id tk => [str "uid"; str "register"; str "--id"; id; str "--token"; tk]
  | LDelete id => [str "uid"; str "delete"; str "--force"; str "--id"; id]
  | LAdd id mix nym tk => [str "keyinit"; str "add"; str "--id"; id; str "--mixaddress"; mix; str "--nymaddress"; nym; str "--token"; tk]
  | LQuit => [str "quit"]
  end.
Lemma solid_lit w : noSpaceb w = true -> w <> [] -> solid w.
Proof. intros A B. split; [exact B|apply noSpaceb_ok, A]. Qed.
Lemma join_cons (w v : bytes) (ws : list bytes) : joinSp (w :: v :: ws) = w ++ 32 :: joinSp (v :: ws).
Proof. reflexivity. Qed.
Lemma words_join (ws : list bytes) : Forall solid ws -> words (joinSp ws) = ws.
Proof.
  induction ws as [|w ws IH]; intros H; [reflexivity|]. inversion_clear H as [|? ? [A1 A2] B]. destruct ws as [|v ws].
  - apply words_one; assumption.
  - rewrite join_cons, words_cons by assumption. rewrite IH by exact B. reflexivity.
Qed.
Lemma words_joinE (ws : list bytes) : Forall solid ws -> ws <> [] -> words (joinSp ws ++ [32]) = ws.
Proof.
  induction ws as [|w ws IH]; intros H E; [congruence|]. inversion_clear H as [|? ? [A1 A2] B]. destruct ws as [|v ws].
  - cbn [joinSp]. rewrite words_cons by assumption. reflexivity.
  - rewrite join_cons, <- app_assoc. cbn [app]. rewrite words_cons by assumption. rewrite IH; [reflexivity|exact B|discriminate].
Qed.
Lemma no10_word w : noSpace w -> ~ In 10 w.
Proof. intros N J. unfold noSpace in N. rewrite Forall_forall in N. apply N in J. discriminate J. Qed.
Lemma no10 (ws : list bytes) : Forall solid ws -> ~ In 10 (joinSp ws).
Proof.
  induction ws as [|w ws IH]; intros H; [intros []|]. inversion_clear H as [|? ? [A1 A2] B]. destruct ws as [|v ws]; [apply no10_word, A2|].
  rewrite join_cons. intros J. apply in_app_or in J as [J|[J|J]]; [exact (no10_word w A2 J)|discriminate J|exact (IH B J)].
Qed.
Lemma join_last (ws : list bytes) : Forall solid ws -> ws <> [] -> exists pre v, joinSp ws = pre ++ v /\ solid v /\ ~ In 10 pre.
Proof.
  induction ws as [|w ws IH]; intros H E; [congruence|]. inversion_clear H as [|? ? A B]. destruct ws as [|v ws].
  - exists [], w. repeat split; [apply A|apply A|intros []].
  - destruct (IH B ltac:(discriminate)) as (pre & u & E1 & S1 & N1). exists (w ++ 32 :: pre), u. rewrite join_cons, E1, <- app_assoc.
    repeat split; [apply S1|apply S1|]. intros J. apply in_app_or in J as [J|[J|J]]; [exact (no10_word w (proj2 A) J)|discriminate J|exact (N1 J)].
Qed.
Lemma lines_join (ws : list bytes) : Forall solid ws -> ws <> [] -> linesOf (joinSp ws ++ [10]) = [joinSp ws].
Proof. intros H E. destruct (join_last ws H E) as (pre & v & -> & [S1 S2] & N1). apply line_cmd; assumption. Qed.
Lemma lines_joinE (ws : list bytes) : Forall solid ws -> linesOf ((joinSp ws ++ [32]) ++ [10]) = [joinSp ws ++ [32]].
Proof.
  intros H. unfold linesOf. rewrite linesF_run.
  - cbn [rev app]. rewrite chop_cr_id; [reflexivity|]. rewrite last_last. discriminate.
  - intros J. apply in_app_or in J as [J|[J|[]]]; [exact (no10 ws H J)|discriminate J].
Qed.
Lemma loop_one (line : bytes) (ws : list bytes) : line <> [] -> words line = ws -> linesOf (line ++ [10]) = [line] -> loopCalls (line ++ [10]) = [cliRun mutecrypt ws].
Proof. intros E W L. unfold loopCalls. rewrite L. cbn [filter]. destruct line as [|x line]; [congruence|]. cbn [map]. rewrite W. reflexivity. Qed.
Lemma join_ne (w : bytes) (ws : list bytes) : w <> [] -> joinSp (w :: ws) <> [].
Proof. intros H. destruct ws; [exact H|]. rewrite join_cons. destruct w; [congruence|discriminate]. Qed.
Lemma written_calls l : solidLine l -> Forall solid (lineWords l) -> loopCalls (written l) = [cliRun mutecrypt (lineWords l)].
Proof.
  intros S0 H. assert (NE : joinSp (lineWords l) <> []) by (destruct l as [i|d h|i tk|i|i mx nm tk|]; apply join_ne; discriminate).
  assert (NL : lineWords l <> []) by (destruct l; discriminate).
  destruct l as [i|d h|i tk|i|i mx nm tk|].
  2: { replace (written (LCaps d h)) with ((joinSp (lineWords (LCaps d h)) ++ [32]) ++ [10]).
       - apply loop_one; [|apply words_joinE; assumption|apply lines_joinE; exact H]. intros Z. apply app_eq_nil in Z as [Z _]. exact (NE Z).
       - unfold written, lineWords. destruct h as [|x h]; cbn [app joinSp]; repeat (rewrite <- app_assoc; cbn [app]); reflexivity. }
  all: match goal with |- loopCalls (written ?l) = _ => replace (written l) with (joinSp (lineWords l) ++ [10]) end;
    [apply loop_one; [exact NE|apply words_join; exact H|apply lines_join; assumption]|].
  all: unfold written, lineWords; cbn [joinSp]; repeat (rewrite <- app_assoc; cbn [app]); reflexivity.
Qed.
Lemma solid_words l : solidLine l -> Forall solid (lineWords l).
Proof.
  destruct l as [i|d h|i tk|i|i mx nm tk|]; cbn [solidLine lineWords]; intros S0; try (destruct h as [|x h]); cbn [app];
    repeat apply Forall_cons; try apply Forall_nil; try (apply solid_lit; [vm_compute; reflexivity|discriminate]); try tauto.
  destruct S0 as [_ S1]. split; [discriminate|exact S1].
Qed.
Lemma line_P (P : list N -> bool) l : solidLine l -> cliRunW P mutecrypt (lineWords l) = Ok (mkCall [] (lineCmd l) (lineFlags l)).
Proof. intros _. destruct l as [i|d h|i tk|i|i mx nm tk|]; try (destruct h as [|x h]); vm_compute; reflexivity. Qed.
Theorem C198_lines_partial : forall l, solidLine l -> exists c, loopCalls (written l) = [Ok c] /\ kGlobals c = [] /\ kCmd c = lineCmd l /\
  (forall n, flagVal n (kFlags c) = givenIn n (lineFlags l)).
Proof.
  intros l S0. exists (mkCall [] (lineCmd l) (lineFlags l)). split.
  - rewrite written_calls by (exact S0 || exact (solid_words l S0)). f_equal. apply line_P, S0.
  - repeat split. intros n. apply flagVal_given. destruct l as [i|d h|i tk|i|i mx nm tk|]; try (destruct h as [|x h]); cbn [lineFlags distinctKeys fst]; repeat split; repeat apply Forall_cons; try apply Forall_nil; vm_compute; reflexivity.
Qed.
(* a value with a blank is not what arrives *)
Theorem C198_lines_refuted : exists l, ~ exists c, loopCalls (written l) = [Ok c] /\ kCmd c = lineCmd l /\ flagVal (str "id") (kFlags c) = givenIn (str "id") (lineFlags l).
Proof. exists (LGenerate (str "a b@mute.one")). intros (c & H & _). vm_compute in H. discriminate H. Qed.

(* db vacuum: mutectrl hands an option on that mutecrypt does not have *)
Theorem C198_refuted : exists e r, typed r /\ (forall c, cliRun (program r) (argsOf e r) <> Ok c) /\ r = RVacuum (str "FULL").
Proof. exists (mkGenv (str "/home/a") (str "info") (str "/home/a/log") false), (RVacuum (str "FULL")). split; [exact I|]. split; [|reflexivity]. intros c H. vm_compute in H. discriminate H. Qed.
(* so the command always fails: the message database is rebuilt, the key database never *)
Theorem C198_vacuum : forall (M K : Type) (mv : list N -> M -> res unit * M) (kv : K -> res unit * K) e s,
  snd (snd (ctrlVacuum M K mv kv e s)) = snd s /\ fst (snd (ctrlVacuum M K mv kv e s)) = snd (mv (str "FULL") (fst s)) /\
  fst (ctrlVacuum M K mv kv e s) <> Ok tt.
Proof.
  intros M K mv kv e [m k]. unfold ctrlVacuum, dbVacuum, mutecryptDBVacuum. cbn [fst snd].
  assert (E : cliRun mutecrypt (argsOf e (RVacuum (str "FULL"))) = Err "flag provided but not defined") by (destruct e; vm_compute; reflexivity).
  rewrite E. destruct (mv (str "FULL") m) as [[u|x|] m']; cbn [fst snd]; repeat split; try (intros Z; discriminate Z).
Qed.
(* with an empty mode it would be understood, and the key database rebuilt *)
Theorem C198_vacuum_plain : forall (M K : Type) (mv : list N -> M -> res unit * M) (kv : K -> res unit * K) e s m',
  mv [] (fst s) = (Ok tt, m') -> dbVacuum M K mv kv e [] s = (fst (kv (snd s)), (m', snd (kv (snd s)))).
Proof.
  intros M K mv kv e [m k] m' H. cbn [fst snd] in *. unfold dbVacuum, mutecryptDBVacuum. cbn [fst snd]. rewrite H.
  assert (E : exists g, cliRun mutecrypt (argsOf e (RVacuum [])) = Ok (mkCall g [str "db"; str "vacuum"] [])) by (destruct e; eexists; vm_compute; reflexivity).
  destruct E as [g E]. rewrite E. cbn [kCmd]. rewrite !beq_refl. cbn [andb]. destruct (kv k) as [r k']. reflexivity.
Qed.

Definition exE := mkGenv (str "-h") [] (str "--") true.
Example C198_ex : typed (RCreate 1 4096) /\ noMode (RCreate 1 4096) /\ typed (PFetch (str "--help") 1446000000) /\ noMode (PFetch (str "--help") 1446000000) /\
  (exists c, cliRun mutecrypt (argsOf exE (RCreate 1 4096)) = Ok c /\ kCmd c = [str "db"; str "create"] /\ ctxInt (str "iterations") c = Some 4096%Z) /\
  (exists c, cliRun muteproto (argsOf exE (PFetch (str "--help") 1446000000)) = Ok c /\ flagVal (str "server") (kFlags c) = Some (str "--help")) /\
  solidLine (LAdd (str "a@mute.one") (str "x@y") (str "bnlt") (str "dG9rZW4=")) /\
  (exists fd, heldBy (RLoop []) fd = Some Lines).
Proof.
  split; [vm_compute; intuition congruence|]. split; [exact I|]. split; [vm_compute; intuition congruence|]. split; [exact I|].
  split; [eexists; split; [vm_compute; reflexivity|split; vm_compute; reflexivity]|].
  split; [eexists; split; [vm_compute; reflexivity|vm_compute; reflexivity]|].
  split; [repeat split; try discriminate; apply noSpaceb_ok; vm_compute; reflexivity|exists 4%Z; reflexivity].
Qed.

Print Assumptions C198_partial.
Print Assumptions C198_numbers.
Print Assumptions C198_streams.
Print Assumptions C198_lines_partial.
Print Assumptions C198_lines_refuted.
Print Assumptions C198_refuted.
Print Assumptions C198_vacuum.
Print Assumptions C198_vacuum_plain.
