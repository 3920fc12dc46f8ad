(* C174-C177: what mutectrl shows of messages and takes as mail. *)
From Verif Require Import Base Base64Model Base64Proofs CodecModel CodecProofs IdentityModel IdentityProofs Utf8Model
  MimeModel MimeProofs PropsMime Maps SqlModel SqlProofs MsgDBModel MsgDBProofs MsgDBQueue MsgDBView MsgDBSpec MsgDBSteps ViewModel.
Local Open Scope N_scope.
Delimit Scope string_scope with string.

(* ------------------------------------------------------------------ *)
(* header fields whose value is any text without line ends are read with the blanks around the value dropped *)
Definition rtrim (s : bytes) : bytes := rev (trim_left (rev s)).
Lemma trim_left_snoc s x r : is_wsp x = false -> trim_left (s ++ x :: r) = trim_left s ++ x :: r.
Proof. intros W. induction s as [|c s IH]; cbn [app trim_left]; [rewrite W; reflexivity|]. destruct (is_wsp c); [exact IH|reflexivity]. Qed.
Lemma rtrim_app p x w : is_wsp x = false -> rtrim (p ++ x :: w) = p ++ x :: rtrim w.
Proof.
  intros W. unfold rtrim. rewrite rev_app_distr. cbn [rev]. rewrite <- app_assoc. cbn [app].
  rewrite trim_left_snoc by exact W. rewrite rev_app_distr. cbn [rev]. rewrite rev_involutive, <- app_assoc. reflexivity.
Qed.
Lemma rtrim_cons c w : rtrim (c :: w) = match rtrim w with [] => if is_wsp c then [] else [c] | _ => c :: rtrim w end.
Proof.
  unfold rtrim. cbn [rev]. assert (forall s, trim_left (s ++ [c]) = match trim_left s with [] => if is_wsp c then [] else [c] | _ => trim_left s ++ [c] end) as E.
  { induction s as [|x s IH]; cbn [app trim_left]; [destruct (is_wsp c); reflexivity|]. destruct (is_wsp x); [exact IH|reflexivity]. }
  rewrite E. destruct (trim_left (rev w)) as [|y t] eqn:Y; [destruct (is_wsp c); reflexivity|].
  rewrite rev_app_distr. cbn [rev app]. destruct (rev t ++ [y]) eqn:Z; [destruct (rev t); discriminate Z|reflexivity].
Qed.
Lemma trim_swap w : trim_left (rtrim w) = trim w.
Proof.
  unfold trim. fold (rtrim (trim_left w)). induction w as [|c w IH]; [reflexivity|].
  cbn [trim_left]. destruct (is_wsp c) eqn:W.
  - rewrite rtrim_cons, W. destruct (rtrim w) eqn:R; [exact IH|]. cbn [trim_left]. rewrite W. exact IH.
  - rewrite rtrim_cons, W. destruct (rtrim w); cbn [trim_left]; rewrite W; reflexivity.
Qed.
Definition anyField (p : bytes * bytes) : Prop := fst p <> [] /\ forallb keyByte (fst p) = true /\ no_nl (snd p).
Lemma readLine_any k v r : k <> [] -> forallb keyByte k = true -> no_nl v ->
  readLine (headerLine k v ++ r) = Some (k ++ [58; 32] ++ v, r).
Proof.
  intros K KB V. unfold headerLine. destruct k as [|c k]; [elim K; reflexivity|].
  rewrite <- !app_assoc. rewrite (app_assoc [58; 32] v (CRLF ++ r)), (app_assoc (c :: k)).
  assert (no_nl ((c :: k) ++ [58; 32] ++ v)) as NL.
  { apply no_nl_app; split; [apply keys_no_nl; exact KB|]. apply no_nl_app; split; [reflexivity|exact V]. }
  change (readLine (((c :: k) ++ [58; 32] ++ v) ++ CRLF ++ r))
    with (match cut_nl (((c :: k) ++ [58; 32] ++ v) ++ CRLF ++ r) with (l, Some r) => Some (chop_cr l, r) | (l, None) => Some (l, []) end).
  rewrite cut_nl_crlf by exact NL. rewrite chop_cr_snoc. reflexivity.
Qed.
Lemma readMIME_any f k v r : k <> [] -> forallb keyByte k = true -> no_nl v -> headOk r ->
  readMIME (S f) (headerLine k v ++ r) = (do (h, body) <- readMIME f r; Ok ((canon k, trim v) :: h, body)).
Proof.
  intros K KB V R. cbn [readMIME]. rewrite readLine_any by assumption.
  destruct ((k ++ [58; 32] ++ v)) as [|c l] eqn:E; [destruct k; [elim K; reflexivity|discriminate]|].
  rewrite <- E at 1. rewrite contLines_none by exact R.
  assert (trim (k ++ [58; 32] ++ v) = k ++ 58 :: rtrim (32 :: v)) as T.
  { unfold trim. destruct k as [|x k]; [elim K; reflexivity|].
    assert (is_wsp x = false) as W by (cbn [forallb] in KB; apply andb_true_iff in KB as [A _]; apply (keyByte_ok x A)).
    rewrite (trim_left_id ((x :: k) ++ [58; 32] ++ v)) by exact W. apply (rtrim_app (x :: k) 58 (32 :: v)). reflexivity. }
  rewrite T. destruct (k ++ 58 :: rtrim (32 :: v)) as [|c' l'] eqn:E2; [destruct k; discriminate|]. rewrite <- E2.
  rewrite index_byte_skip by exact KB. rewrite takeN_app by reflexivity.
  rewrite trimKey_id by (rewrite forallb_forall in *; intros x I; apply KB, in_rev; exact I). rewrite rev_involutive.
  replace (k ++ 58 :: rtrim (32 :: v)) with ((k ++ [58]) ++ rtrim (32 :: v)) by (rewrite <- app_assoc; reflexivity).
  rewrite dropN_app by (rewrite lenN_app; reflexivity). rewrite trim_swap. change (trim (32 :: v)) with (trim v).
  assert (beq (canon k) [] = false) as CK.
  { unfold canon. rewrite KB. destruct k; [elim K; reflexivity|reflexivity]. }
  rewrite CK. destruct (readMIME f r) as [[h body]| |]; reflexivity.
Qed.
Lemma headOk_any fs body : Forall anyField fs -> headOk (lines fs ++ CRLF ++ body).
Proof.
  intros F. destruct fs as [|[k v] fs]; [reflexivity|]. apply Forall_inv in F as (K & KB & _). cbn [fst] in K, KB.
  destruct k as [|c k]; [elim K; reflexivity|]. cbn [forallb] in KB. apply andb_true_iff in KB as [A _].
  change (is_wsp c = false). apply (keyByte_ok c A).
Qed.
Lemma readHdr_any fs body : Forall anyField fs ->
  readHdr (lines fs ++ CRLF ++ body) = Ok (map (fun p => (canon (fst p), trim (snd p))) fs, body).
Proof.
  intros F. unfold readHdr.
  assert (forall f, (List.length fs < f)%nat -> readMIME f (lines fs ++ CRLF ++ body) = Ok (map (fun p => (canon (fst p), trim (snd p))) fs, body)) as G.
  { clear -F. induction fs as [|[k v] fs IH]; intros f Hf; (destruct f as [|f]; [cbn in Hf; lia|]).
    - reflexivity.
    - pose proof (Forall_inv F) as (K & KB & V). cbn [fst snd] in K, KB, V. apply Forall_inv_tail in F.
      change (lines ((k, v) :: fs)) with (headerLine k v ++ lines fs). rewrite <- app_assoc.
      rewrite readMIME_any by (try assumption; apply headOk_any; exact F).
      rewrite IH by (try assumption; cbn in Hf; lia). reflexivity. }
  apply G. rewrite app_length. pose proof (length_lines fs). lia.
Qed.

(* ------------------------------------------------------------------ *)
(* Specification. *)
(* the text after the first line *)
Definition afterFirst (text body : bytes) : Prop :=
  (exists l, text = l ++ 10 :: body /\ ~ In 10 l) \/ (~ In 10 text /\ body = []).
(* the same message, marked as read *)
Definition asRead (m : msgRow) : msgRow :=
  mkMsg (mSelf m) (mPeer m) (mDir m) (mToSend m) (mSent m) (mFrom m) (mTo m) (mDate m) (mSubject m)
        (mText m) (mSign m) (mMin m) (mMax m) true.
Definition onlyMarked (n : N) (db db' : msgdb) : Prop :=
  dbMsgs db' = map (fun r => if fst r =? n then (fst r, asRead (snd r)) else r) (dbMsgs db)
  /\ dbKV db' = dbKV db /\ dbNyms db' = dbNyms db /\ dbContacts db' = dbContacts db /\ dbAccounts db' = dbAccounts db
  /\ dbOut db' = dbOut db /\ dbIn db' = dbIn db /\ dbIds db' = dbIds db.
(* the names of a mail header, in order *)
Definition names (h : list (bytes * bytes)) : list bytes := map fst h.

Lemma split_spec text s body : splitMessage text = (s, body) -> firstLine text s /\ afterFirst text body.
Proof.
  unfold splitMessage. intros E.
  assert (forall t, (exists l m, cut_nl t = (l, Some m) /\ t = l ++ 10 :: m /\ ~ In 10 l) \/ (cut_nl t = (t, None) /\ ~ In 10 t)) as C.
  { clear. induction t as [|c t IH]; [right; split; [reflexivity|intros []]|]. cbn [cut_nl].
    destruct (N.eqb_spec c 10) as [->|NE]; [left; exists [], t; split; [reflexivity|split; [reflexivity|intros []]]|].
    destruct IH as [(l & m & -> & -> & N)|[-> N]].
    - left. exists (c :: l), m. split; [reflexivity|]. split; [reflexivity|]. intros [I|I]; [exact (NE I)|exact (N I)].
    - right. split; [reflexivity|]. intros [I|I]; [exact (NE I)|exact (N I)]. }
  assert (forall l, exists k, l = rev (dropCR (rev l)) ++ repeat 13 k /\ forall u, rev (dropCR (rev l)) <> u ++ [13]) as CR.
  { clear. intros l.
    assert (forall r, exists k, rev r = rev (dropCR r) ++ repeat 13 k /\ forall u, rev (dropCR r) <> u ++ [13]) as G;
      [|destruct (G (rev l)) as (k & E & N); exists k; rewrite rev_involutive in E; split; assumption].
    induction r as [|c r IH]; [exists 0%nat; split; [reflexivity|intros [|x u]; discriminate]|].
    destruct (N.eq_dec c 13) as [->|NE].
    - destruct IH as (k & E & N). exists (S k). split; [|exact N]. cbn [dropCR rev]. rewrite E, <- app_assoc.
      f_equal. clear. induction k as [|k IH]; [reflexivity|]. cbn [repeat app] in *. rewrite IH. reflexivity.
    - assert (dropCR (c :: r) = c :: r) as ->.
      { cbn [dropCR]. destruct c as [|p]; [reflexivity|]. do 4 (destruct p as [p|p|]; try reflexivity). elim NE; reflexivity. }
      exists 0%nat. split; [rewrite app_nil_r; reflexivity|]. intros u X. cbn [rev] in X. apply app_inj_tail in X as [_ X]. exact (NE X). }
  destruct (C text) as [(l & m & EC & ET & N)|[EC N]]; rewrite EC in E; apply pair_equal_spec in E as [<- <-].
  - destruct (CR l) as (k & El & N13). split; [|left; exists l; split; assumption].
    exists k, (10 :: m). split; [rewrite ET; rewrite El at 1; rewrite <- app_assoc; reflexivity|].
    split; [right; exists m; reflexivity|]. split; [|exact N13]. intros I. apply N. rewrite El. apply in_or_app. left. exact I.
  - destruct (CR text) as (k & El & N13). split; [|right; split; [exact N|reflexivity]].
    exists k, []. split; [rewrite El at 1; rewrite app_nil_r; reflexivity|]. split; [left; reflexivity|]. split; [|exact N13].
    intros I. apply N. rewrite El. apply in_or_app. left. exact I.
Qed.

Section Read.
Variable D : Dates.
Variable mx : N.
Definition viewFields (from to : bytes) (date : Z) (subject : bytes) : list (bytes * bytes) :=
  [(str "Date", mailDate D date); (str "From", from); (str "To", to)]
  ++ (if beq subject [] then [] else [(str "Subject", qEncode mx subject)])
  ++ [(str "MIME-Version", str "1.0"); (str "Content-Type", str "text/plain; charset=UTF-8")].
Lemma mailView_lines from to date text s body : splitMessage text = (s, body) ->
  mailView D mx from to date text = lines (viewFields from to date s) ++ CRLF ++ body.
Proof.
  intros E. unfold mailView. rewrite E. unfold viewFields, lines. destruct (beq s []); cbn [map concat app fst snd]; rewrite ?app_nil_r, <- ?app_assoc; reflexivity.
Qed.
Lemma subject_line s : wfb s -> ~ In 10 s -> no_nl (qEncode mx s).
Proof.
  intros W N. destruct s as [|c s]; [reflexivity|]. destruct (needsEncoding (c :: s)) eqn:NE.
  - apply clean_no_nl. apply qEncode_clean; [exact W|discriminate|exact NE].
  - unfold qEncode. rewrite NE. unfold no_nl. apply forallb_forall. intros x I.
    unfold needsEncoding in NE. destruct (is_nl x) eqn:L; [|reflexivity]. exfalso.
    assert (existsb (fun c => ((c <? 32) || (126 <? c)) && negb (c =? 9)) (c :: s) = true) as Y; [|rewrite Y in NE; discriminate NE].
    apply existsb_exists. exists x. split; [exact I|]. unfold is_nl in L. lia.
Qed.
Lemma viewFields_any from to date s : fieldText from -> fieldText to -> wfb s -> ~ In 10 s -> Forall anyField (viewFields from to date s).
Proof.
  intros F T W N. unfold viewFields.
  assert (forall k v, k <> [] -> forallb keyByte k = true -> no_nl v -> anyField (k, v)) as G by (intros k v; unfold anyField; cbn; auto).
  apply Forall_app; split.
  { constructor; [apply G; [discriminate|reflexivity|apply clean_no_nl, mailDate_clean]|].
    constructor; [apply G; [discriminate|reflexivity|apply clean_no_nl, field_clean; exact F]|].
    constructor; [apply G; [discriminate|reflexivity|apply clean_no_nl, field_clean; exact T]|constructor]. }
  apply Forall_app; split.
  { destruct (beq s []); [constructor|]. constructor; [|constructor]. apply G; [discriminate|reflexivity|apply subject_line; assumption]. }
  constructor; [apply G; [discriminate|reflexivity|reflexivity]|]. constructor; [apply G; [discriminate|reflexivity|reflexivity]|constructor].
Qed.
Lemma trim_clean v : clean v = true -> trim v = v.
Proof.
  intros C. destruct v as [|c v]; [reflexivity|]. destruct (clean_ends c v C) as [A B]. apply trim_id; [exact A|exact B].
Qed.
End Read.

(* C174.  Reading a message marks it, and nothing else, as read, and only if it belongs to the
   user; and the output is a mail with exactly the fields shown, naming the two parties as the
   database does, whatever the text of the message is: neither the subject nor the body can add
   a field. *)
Theorem C174_partial : forall U D mx id n db out db', msgRead U D mx id n db = Ok (out, db') ->
  exists my m from to text date,
    imap U id = Ok my /\ getMessage U my n db = Ok (from, to, text, date)
    /\ tget n (dbMsgs db) = Some m /\ qNymMapped (mSelf m) db = Ok my /\ text = mText m /\ date = mDate m
    /\ onlyMarked n db db'
    /\ (fieldText from -> fieldText to -> wfb text ->
        exists h body s, readHdr out = Ok (h, body) /\ firstLine text s /\ afterFirst text body
          /\ names h = map str (["Date"; "From"; "To"] ++ (if beq s [] then [] else ["Subject"]) ++ ["Mime-Version"; "Content-Type"])%string
          /\ hget (str "From") h = from /\ hget (str "To") h = to
          /\ hget (str "Date") h = mailDate D date
          /\ hget (str "Content-Type") h = str "text/plain; charset=UTF-8"
          /\ (subjectOk s -> decodeHeader (hget (str "Subject") h) = Ok s)).
Proof.
  intros U D mx id n db out db' H. unfold msgRead in H.
  destruct (imap U id) as [my| |] eqn:EI; try discriminate H. cbn [rbind] in H.
  destruct (getMessage U my n db) as [[[[from to] text] date]| |] eqn:EG; try discriminate H. cbn [rbind readMessage] in H.
  assert (exists m, tget n (dbMsgs db) = Some m /\ qNymMapped (mSelf m) db = Ok my /\ text = mText m /\ date = mDate m) as (m & M1 & M2 & M3 & M4).
  { unfold getMessage in EG. destruct (need (mapped U my) "ErrNotMapped") as [[]| |]; try discriminate EG. cbn [rbind] in EG.
    destruct (tget n (dbMsgs db)) as [m|]; [|discriminate EG]. exists m. split; [reflexivity|].
    destruct (qNymMapped (mSelf m) db) as [self| |]; try discriminate EG. cbn [rbind] in EG.
    destruct (beq my self) eqn:B; [|discriminate EG]. apply beq_spec in B as ->. cbn [need rbind] in EG.
    destruct (qContactMapped (mSelf m) (mPeer m) db) as [peer| |]; try discriminate EG. cbn [rbind] in EG.
    destruct (getNym U self db) as [[nu nf]| |]; try discriminate EG. cbn [rbind] in EG.
    destruct (getContact U self peer db) as [[[cu cf] ct]| |]; try discriminate EG. cbn [rbind] in EG.
    split; [reflexivity|]. destruct (mDir m); split; congruence. }
  apply Ok_eq in H. apply pair_equal_spec in H as [<- <-].
  exists my, m, from, to, text, date. do 6 (split; [first [reflexivity|assumption]|]). split.
  { unfold onlyMarked. cbn [withMsgs dbMsgs dbKV dbNyms dbContacts dbAccounts dbOut dbIn dbIds].
    do 7 (split; [reflexivity|]). reflexivity. }
  intros F T W. destruct (splitMessage text) as [s body] eqn:ES. destruct (split_spec _ _ _ ES) as [FL AF].
  assert (wfb s /\ ~ In 10 s) as [WS NS].
  { destruct FL as (k & r & E & _ & N & _). split; [|exact N]. rewrite E in W. apply wfb_app in W as [W _]. exact W. }
  rewrite (mailView_lines D mx from to date text s body ES).
  rewrite (readHdr_any (viewFields D mx from to date s) body) by (apply viewFields_any; assumption).
  eexists _, body, s. split; [reflexivity|]. split; [exact FL|]. split; [exact AF|].
  pose proof (field_clean _ F) as CF. pose proof (field_clean _ T) as CT.
  unfold viewFields.
  split; [destruct (beq s []); reflexivity|].
  split; [destruct (beq s []); exact (trim_clean _ CF)|].
  split; [destruct (beq s []); exact (trim_clean _ CT)|].
  split; [destruct (beq s []); exact (trim_clean _ (mailDate_clean D date))|].
  split; [destruct (beq s []); reflexivity|].
  intros SO. destruct (subject_clean mx s WS SO) as (CS & _ & DS). destruct (beq s []) eqn:B.
  - apply beq_spec in B. destruct SO as [SO _]. elim (SO B).
  - change (decodeHeader (trim (qEncode mx s)) = Ok s). rewrite (trim_clean _ CS). exact DS.
Qed.

(* examples: Ann has the contact Carl *)
Definition exD : Dates.
Proof.
  refine (mkDates (fun d => decimal (Z.to_N d mod 10)) (fun d => decimal (Z.to_N d mod 10)) _ _).
  - intros d. assert (Z.to_N d mod 10 < 10) as L by (apply N.mod_lt; discriminate). generalize dependent (Z.to_N d mod 10). clear. intros n L.
    assert (n = 0 \/ n = 1 \/ n = 2 \/ n = 3 \/ n = 4 \/ n = 5 \/ n = 6 \/ n = 7 \/ n = 8 \/ n = 9) as K by lia.
    repeat (destruct K as [->|K]; [reflexivity|]). rewrite K. reflexivity.
  - intros d c. assert (Z.to_N d mod 10 < 10) as L by (apply N.mod_lt; discriminate). generalize dependent (Z.to_N d mod 10). clear. intros n L I.
    assert (n = 0 \/ n = 1 \/ n = 2 \/ n = 3 \/ n = 4 \/ n = 5 \/ n = 6 \/ n = 7 \/ n = 8 \/ n = 9) as K by lia.
    repeat (destruct K as [->|K]; [cbn in I; destruct I as [<-|[]]; split; discriminate|]). rewrite K in I. cbn in I. destruct I as [<-|[]]; split; discriminate.
Defined.
Definition exAnn : bytes := str "ann@b.de".
Definition exCat : bytes := str "cat@b.de".
Definition exDB (full text : bytes) : msgdb :=
  drun goUnicode [DAddNym exAnn (str "Ann@b.de") []; DAddContact exAnn exCat exCat full 0; DAddInQueue exAnn exCat 3 (str "e");
    DSetInQueue 1 (str "d"); DRemoveInQueue 1 text exCat false] emptyDB.
Definition exText : bytes := str "Hi" ++ [13; 10] ++ str "all" ++ [10] ++ str "x".
Definition exView : bytes :=
  str "Date: 3" ++ CRLF ++ str "From: Carl <cat@b.de>" ++ CRLF ++ str "To: Ann@b.de" ++ CRLF ++ str "Subject: Hi" ++ CRLF
  ++ str "MIME-Version: 1.0" ++ CRLF ++ str "Content-Type: text/plain; charset=UTF-8" ++ CRLF ++ CRLF ++ str "all" ++ [10] ++ str "x".
Example C174_ex : exists db', msgRead goUnicode exD 63 (str "ANN@b.de") 1 (exDB (str "Carl") exText) = Ok (exView, db').
Proof. exists (drun goUnicode [DReadMessage 1] (exDB (str "Carl") exText)). vm_compute. reflexivity. Qed.

(* A name with a line end adds fields to the mail; such a name is accepted for a contact. *)
Definition exForged : bytes := str "Carl" ++ CRLF ++ str "Reply-To: eve@b.de" ++ CRLF ++ str "X-C:".
Theorem C174_name_refuted : exists id n db out db', (exists ops, db = drun goUnicode ops emptyDB)
  /\ msgRead goUnicode exD 63 id n db = Ok (out, db')
  /\ match readHdr out with Ok (h, _) => hget (str "Reply-To") h = str "eve@b.de" | _ => False end.
Proof.
  exists exAnn, 1, (exDB exForged exText).
  exists (match msgRead goUnicode exD 63 exAnn 1 (exDB exForged exText) with Ok (o, _) => o | _ => [] end), (drun goUnicode [DReadMessage 1] (exDB exForged exText)).
  split; [eexists; reflexivity|]. vm_compute. split; reflexivity.
Qed.
(* A first line that looks like an encoded word is shown as what it encodes. *)
Theorem C174_subject_refuted : exists id n db out db' s, (exists ops, db = drun goUnicode ops emptyDB)
  /\ msgRead goUnicode exD 63 id n db = Ok (out, db')
  /\ (exists m, tget n (dbMsgs db) = Some m /\ fst (splitMessage (mText m)) = s)
  /\ match readHdr out with Ok (h, _) => exists s', decodeHeader (hget (str "Subject") h) = Ok s' /\ s' <> s | _ => False end.
Proof.
  exists exAnn, 1, (exDB [] (str "=?utf-8?q?A?=")).
  exists (match msgRead goUnicode exD 63 exAnn 1 (exDB [] (str "=?utf-8?q?A?=")) with Ok (o, _) => o | _ => [] end),
    (drun goUnicode [DReadMessage 1] (exDB [] (str "=?utf-8?q?A?="))), (str "=?utf-8?q?A?=").
  split; [eexists; reflexivity|]. split; [vm_compute; reflexivity|]. split; [eexists; split; vm_compute; reflexivity|].
  vm_compute. exists [65]. split; [reflexivity|discriminate].
Qed.

(* ------------------------------------------------------------------ *)
(* C175.  A message is added only for a known, white-listed contact; it is stored at the end, once, with
   the text as it was given, waiting to be sent, and nothing else changes. *)
Definition knownContact (db : msgdb) (u : N) (c : bytes) : Prop :=
  exists k r, In (k, r) (dbContacts db) /\ cMy r = u /\ cMapped r = c /\ cBlocked r = 0.
Theorem C175_add : forall U from to input now sign a b db db', msgAdd U from to false input now sign a b db = Ok db' ->
  exists my c u p m, imap U from = Ok my /\ imap U to = Ok c /\ qNymUID my db = Ok u /\ knownContact db u c
    /\ db' = withMsgs (dbMsgs db ++ [(nextId (dbMsgs db), m)]) db
    /\ mText m = input /\ mSelf m = u /\ mPeer m = p /\ qContactUID u c db = Ok p /\ mFrom m = my /\ mTo m = c
    /\ mDir m = true /\ mToSend m = true /\ mSent m = false /\ mDate m = now /\ mSign m = sign /\ mMin m = a /\ mMax m = b.
Proof.
  intros U from to input now sign a b db db' H. unfold msgAdd in H.
  destruct (imap U from) as [my| |] eqn:EF; try discriminate H. cbn [rbind] in H.
  destruct (getNym U my db) as [[prev pf]| |] eqn:EN; try discriminate H. cbn [rbind] in H.
  destruct (isNil prev) eqn:NP; [discriminate H|].
  destruct (imap U to) as [c| |] eqn:ET; try discriminate H. cbn [rbind] in H.
  destruct (getContact U my c db) as [[[cu cf] ct]| |] eqn:EC; try discriminate H. cbn [rbind] in H.
  destruct (isNil cu || (ct =? 1) || (ct =? 2)) eqn:B; [discriminate H|].
  apply orb_false_iff in B as [B B2]. apply orb_false_iff in B as [B0 B1].
  unfold addMessage in H. inv1 H. inv1 H. inv1 H. inv1 H. apply Ok_eq in H.
  unfold getContact in EC. inv1 EC. inv1 EC. inv1 EC.
  exists my, c, a2, a3. eexists. split; [reflexivity|]. split; [reflexivity|]. split; [assumption|]. split.
  - match goal with X : qNymUID my db = Ok ?v, Y : qNymUID my db = Ok a2 |- _ => assert (v = a2) as -> by congruence end.
    destruct (tmin (fun _ r => isContact a2 c r) (dbContacts db)) as [[k r]|] eqn:TM; [|apply Ok_eq in EC; assert (cu = []) by congruence; subst cu; discriminate B0].
    apply tmin_some in TM as [I P]. cbn [fst snd] in P. exists k, r. split; [exact I|]. unfold isContact in P. apply andb_true_iff in P as [P1 P2].
    apply N.eqb_eq in P1. apply beq_spec in P2. split; [exact P1|]. split; [exact P2|].
    destruct (cBlocked r <=? 2) eqn:L; [|discriminate EC]. apply Ok_eq in EC. assert (ct = cBlocked r) as -> by congruence. lia.
  - split; [symmetry; exact H|]. repeat split. assumption.
Qed.

Theorem C175_accepts : forall U from to my c prev full cu cf input now sign a b db,
  imap U from = Ok my -> imap U to = Ok c -> getNym U my db = Ok (prev, full) -> prev <> [] ->
  getContact U my c db = Ok (cu, cf, 0) -> cu <> [] ->
  exists db', msgAdd U from to false input now sign a b db = Ok db'.
Proof.
  intros U from to my c prev full cu cf input now sign a b db EF ET EN NP EC NC. unfold msgAdd.
  rewrite EF. cbn [rbind]. rewrite EN. cbn [rbind]. destruct prev as [|x prev]; [elim NP; reflexivity|]. cbn [isNil].
  rewrite ET. cbn [rbind]. rewrite EC. cbn [rbind]. destruct cu as [|y cu]; [elim NC; reflexivity|].
  change (isNil (y :: cu) || (0 =? 1) || (0 =? 2)) with false. cbv iota.
  unfold getContact in EC. destruct (mapped U my) eqn:M1; [|discriminate EC]. destruct (mapped U c) eqn:M2; [|discriminate EC].
  cbn [need rbind] in EC. destruct (qNymUID my db) as [u| |] eqn:Q; try discriminate EC. cbn [rbind] in EC.
  unfold addMessage. rewrite M1, M2. cbn [need rbind]. rewrite Q. cbn [rbind]. unfold qContactUID.
  destruct (tmin (fun _ r => isContact u c r) (dbContacts db)) as [[k r]|]; [|discriminate EC]. cbn [rbind]. eexists. reflexivity.
Qed.
Definition exTwo : msgdb := drun goUnicode [DAddNym exAnn (str "Ann@b.de") []; DAddContact exAnn exCat exCat [] 0;
  DAddContact exAnn (str "dan@b.de") (str "dan@b.de") [] 1] emptyDB.
Example C175_ex : exists db', msgAdd goUnicode (str "Ann@b.de") (str "Cat@b.de") false exText 7 false 1 2 exTwo = Ok db'
  /\ map (fun r => mText (snd r)) (dbMsgs db') = [exText].
Proof. eexists. split; vm_compute; reflexivity. Qed.
Example C175_gray : msgAdd goUnicode (str "Ann@b.de") (str "Dan@b.de") false exText 7 false 1 2 exTwo = Err "contact not found".
Proof. vm_compute. reflexivity. Qed.

(* ------------------------------------------------------------------ *)
(* C176.  Mail input: the recipient is the first To field, the message its first Subject field, a line end and
   the body; names of fields are compared without case. *)
Definition lowerByte (c : N) : N := if (65 <=? c) && (c <=? 90) then c + 32 else c.
Definition sameName (a b : bytes) : Prop := map lowerByte a = map lowerByte b.
Definition named (name : bytes) (fs : list (bytes * bytes)) (v : bytes) : Prop :=
  exists pre k post, fs = pre ++ (k, v) :: post /\ sameName k name /\ forall p, In p pre -> ~ sameName (fst p) name.
Definition unnamed (name : bytes) (fs : list (bytes * bytes)) : Prop := forall p, In p fs -> ~ sameName (fst p) name.
Lemma canonF_lower k : forall u, map lowerByte (canonF u k) = map lowerByte k.
Proof.
  induction k as [|c k IH]; intros u; [reflexivity|]. cbn [canonF map]. rewrite IH. f_equal. unfold lowerByte. destruct u; cbn [negb andb].
  - destruct ((97 <=? c) && (c <=? 122)) eqn:E; [|reflexivity]. destruct ((65 <=? c - 32) && (c - 32 <=? 90)) eqn:F; destruct ((65 <=? c) && (c <=? 90)) eqn:G; lia.
  - destruct ((65 <=? c) && (c <=? 90)) eqn:E; [|rewrite E; reflexivity]. destruct ((65 <=? c + 32) && (c + 32 <=? 90)) eqn:F; lia.
Qed.
Lemma canonF_same k : forall k' u, map lowerByte k = map lowerByte k' -> canonF u k = canonF u k'.
Proof.
  induction k as [|c k IH]; intros [|c' k'] u E; try discriminate E; [reflexivity|]. cbn [map] in E. injection E as E1 E2.
  assert ((c =? 45) = (c' =? 45)) as E3 by (clear IH E2; unfold lowerByte in E1; destruct ((65 <=? c) && (c <=? 90)) eqn:A, ((65 <=? c') && (c' <=? 90)) eqn:B; lia).
  cbn [canonF]. rewrite E3, (IH k' _ E2). f_equal. clear IH E2 E3. unfold lowerByte in E1.
  destruct ((65 <=? c) && (c <=? 90)) eqn:A, ((65 <=? c') && (c' <=? 90)) eqn:B, ((97 <=? c) && (c <=? 122)) eqn:A', ((97 <=? c') && (c' <=? 122)) eqn:B'; destruct u; cbn [negb andb]; lia.
Qed.
Lemma canon_same k name : forallb keyByte k = true -> forallb keyByte name = true -> (canon k = canon name <-> sameName k name).
Proof.
  intros K N. unfold canon, sameName. rewrite K, N. split; [|apply canonF_same]. intros E.
  rewrite <- (canonF_lower k true), E. apply canonF_lower.
Qed.
Lemma hget_named name fs v : Forall goodField fs -> forallb keyByte name = true -> canon name = name -> named name fs v ->
  hget name (map (fun p => (canon (fst p), snd p)) fs) = v.
Proof.
  intros G NB CN (pre & k & post & -> & S & N). unfold hget, hvalues. rewrite map_app, filter_app.
  assert (filter (fun p : bytes * bytes => beq (fst p) name) (map (fun p => (canon (fst p), snd p)) pre) = []) as ->.
  { apply Forall_app in G as [G _]. induction pre as [|p pre IH]; [reflexivity|]. cbn [map filter fst].
    rewrite IH; [|exact (Forall_inv_tail G)|intros q I; apply N; right; exact I].
    destruct (beq (canon (fst p)) name) eqn:B; [|reflexivity]. apply beq_spec in B. elim (N p (or_introl eq_refl)).
    apply canon_same; [apply (Forall_inv G)|exact NB|congruence]. }
  apply Forall_app in G as [_ G]. apply Forall_inv in G as (_ & KB & _). cbn [fst] in KB.
  cbn [map filter app fst]. assert (canon k = name) as -> by (rewrite <- CN; apply canon_same; assumption). rewrite beq_refl. reflexivity.
Qed.
Lemma hget_unnamed name fs : Forall goodField fs -> forallb keyByte name = true -> canon name = name -> unnamed name fs ->
  hget name (map (fun p => (canon (fst p), snd p)) fs) = [].
Proof.
  intros G NB CN N. unfold hget, hvalues.
  assert (filter (fun p : bytes * bytes => beq (fst p) name) (map (fun p => (canon (fst p), snd p)) fs) = []) as ->; [|reflexivity].
  induction fs as [|p fs IH]; [reflexivity|]. cbn [map filter fst].
  rewrite IH; [|exact (Forall_inv_tail G)|intros q I; apply N; right; exact I].
  destruct (beq (canon (fst p)) name) eqn:B; [|reflexivity]. apply beq_spec in B. elim (N p (or_introl eq_refl)).
  apply canon_same; [apply (Forall_inv G)|exact NB|congruence].
Qed.
Theorem C176_mail : forall fs body, Forall goodField fs ->
  (forall to s, named (str "To") fs to -> to <> [] -> (named (str "Subject") fs s \/ (unnamed (str "Subject") fs /\ s = [])) ->
     mailParse (lines fs ++ CRLF ++ body) = Ok (to, s ++ [10] ++ body))
  /\ (unnamed (str "To") fs -> mailParse (lines fs ++ CRLF ++ body) = Err "mail: 'To' not defined").
Proof.
  intros fs body G. unfold mailParse. rewrite readHdr_lines by exact G. cbn [rbind]. split.
  - intros to s NT N0 NS. rewrite (hget_named (str "To") fs to G eq_refl eq_refl NT).
    rewrite (proj2 (beq_neq _ _) N0). destruct NS as [NS|[NS ->]].
    + rewrite (hget_named (str "Subject") fs s G eq_refl eq_refl NS). reflexivity.
    + rewrite (hget_unnamed (str "Subject") fs G eq_refl eq_refl NS). reflexivity.
  - intros NT. rewrite (hget_unnamed (str "To") fs G eq_refl eq_refl NT). reflexivity.
Qed.
Definition exMail : list (bytes * bytes) := [(str "From", str "x"); (str "tO", str "cat@b.de"); (str "SUBJECT", str "Hi"); (str "To", str "dan@b.de")].
Example C176_ex : mailParse (lines exMail ++ CRLF ++ str "all") = Ok (str "cat@b.de", str "Hi" ++ [10] ++ str "all").
Proof. vm_compute. reflexivity. Qed.

(* A message shown by msg read is taken back as it was if its first line is plain text. *)
Theorem C176_view_partial : forall U D mx id n db out db' my from to text date s body,
  msgRead U D mx id n db = Ok (out, db') -> imap U id = Ok my -> getMessage U my n db = Ok (from, to, text, date) ->
  fieldText from -> fieldText to -> to <> [] -> wfb text ->
  text = s ++ [10] ++ body -> s <> [] -> fieldText s -> (forall c, In c s -> 32 <= c <= 126) ->
  mailParse out = Ok (to, text).
Proof.
  intros U D mx id n db out db' my from to text date s body H EI EG F T NT W E NS FS P.
  unfold msgRead in H. rewrite EI in H. cbn [rbind] in H. rewrite EG in H. cbn [rbind readMessage] in H.
  apply Ok_eq in H. apply pair_equal_spec in H as [<- _].
  assert (splitMessage text = (s, body)) as ES.
  { pose proof (split_first text s) as A. destruct (splitMessage text) as [s' body'] eqn:Z. cbn [fst] in A.
    destruct (split_spec _ _ _ Z) as [_ B]. rewrite A.
    - f_equal. destruct B as [(l & B1 & B2)|[B1 B2]].
      + rewrite E in B1. clear -B1 B2 P. revert l B1 B2. induction s as [|c s IH]; intros [|x l] B1 B2; cbn [app] in B1.
        * congruence.
        * elim B2. left. congruence.
        * assert (c = 10) as -> by congruence. specialize (P 10 (or_introl eq_refl)). lia.
        * apply (IH (fun c I => P c (or_intror I)) l); [injection B1 as _ B1; exact B1|]. intros I. apply B2. right. exact I.
      + elim B1. rewrite E. apply in_or_app. right. left. reflexivity.
    - exists 0%nat, (10 :: body). split; [exact E|]. split; [right; exists body; reflexivity|]. split.
      + intros I. specialize (P 10 I). lia.
      + intros u X. assert (In 13 s) as I by (rewrite X; apply in_or_app; right; left; reflexivity). specialize (P 13 I). lia. }
  assert (wfb s) as WS by (rewrite E in W; apply wfb_app in W as [W _]; exact W).
  rewrite (mailView_lines D mx from to date text s body ES). unfold mailParse.
  rewrite (readHdr_any (viewFields D mx from to date s) body);
    [|apply viewFields_any; try assumption; intros I; specialize (P 10 I); lia].
  assert (qEncode mx s = s) as Q.
  { unfold qEncode. destruct (needsEncoding s) eqn:NE; [|reflexivity]. unfold needsEncoding in NE. apply existsb_exists in NE as (c & I & C).
    specialize (P c I). lia. }
  cbn [rbind]. unfold viewFields. rewrite (proj2 (beq_neq _ _) NS), Q.
  change (hget (str "To") _) with (trim to). rewrite (trim_clean _ (field_clean _ T)), (proj2 (beq_neq _ _) NT).
  change (hget (str "Subject") _) with (trim s). rewrite (trim_clean _ (field_clean _ FS)), E. reflexivity.
Qed.
Definition exPlain : bytes := str "Hi all" ++ [10] ++ str "x".
Example C176_view_ex : mailParse (match msgRead goUnicode exD 63 exAnn 1 (exDB [] exPlain) with Ok (o, _) => o | _ => [] end) = Ok (str "Ann@b.de", exPlain).
Proof. vm_compute. reflexivity. Qed.
(* A subject with other characters is taken as the encoded word, not as the text it stands for. *)
Theorem C176_encoded_refuted : exists s mail to text, wfb s /\ mail = lines [(str "To", exCat); (str "Subject", qEncode 63 s)] ++ CRLF
  /\ decodeHeader (qEncode 63 s) = Ok s /\ mailParse mail = Ok (to, text) /\ ~ (exists body, text = s ++ [10] ++ body).
Proof.
  exists [195; 164], (lines [(str "To", exCat); (str "Subject", qEncode 63 [195; 164])] ++ CRLF), exCat, (str "=?utf-8?q?=C3=A4?=" ++ [10]).
  split; [repeat constructor|]. split; [reflexivity|]. split; [vm_compute; reflexivity|]. split; [vm_compute; reflexivity|].
  intros [body E]. discriminate E.
Qed.
(* The form in which mute itself shows a contact with a name is not understood: the contact is known, its own
   address is accepted as recipient, but not the one msg read prints. *)
Definition exNamed : msgdb := exDB (str "Carl") exPlain.
Definition exReply (to : bytes) : bytes := lines [(str "To", to); (str "Subject", str "Re")] ++ CRLF ++ str "ok".
Theorem C176_name_refuted : exists db out db' to body, msgRead goUnicode exD 63 exAnn 1 db = Ok (out, db')
  /\ match readHdr out with Ok (h, b) => hget (str "From") h = to /\ b = body | _ => False end
  /\ (exists e, msgAdd goUnicode exAnn [] true (exReply to) 9 false 0 0 db = Err e)
  /\ (exists db2, msgAdd goUnicode exAnn [] true (exReply exCat) 9 false 0 0 db = Ok db2).
Proof.
  exists exNamed, (match msgRead goUnicode exD 63 exAnn 1 exNamed with Ok (o, _) => o | _ => [] end), (drun goUnicode [DReadMessage 1] exNamed), (str "Carl <cat@b.de>"), (str "x").
  split; [vm_compute; reflexivity|]. split; [vm_compute; split; reflexivity|]. split.
  - exists (match msgAdd goUnicode exAnn [] true (exReply (str "Carl <cat@b.de>")) 9 false 0 0 exNamed with Err e => e | _ => String.EmptyString end). vm_compute. reflexivity.
  - exists (drun goUnicode [DAddMessage exAnn exCat 9 true (str "Re" ++ [10] ++ str "ok") false 0 0] exNamed). vm_compute. reflexivity.
Qed.

(* ------------------------------------------------------------------ *)
(* C177.  The list of messages. *)
Definition plainCell (s : bytes) : Prop := ~ In 9 s /\ ~ In 10 s.
(* the letters for a message: direction and state *)
Definition mark (m : msgRow) : bytes :=
  match mDir m, mRead m, mSent m with
  | false, true, _ => str ">R"
  | false, false, _ => str ">N"
  | true, _, true => str "<S"
  | true, _, false => str "<P"
  end.
(* [s] is the text up to its first line end *)
Definition upTo10 (text s : bytes) : Prop := exists r, text = s ++ r /\ ~ In 10 s /\ (r = [] \/ exists t, r = 10 :: t).
(* the subject in the database is the first line of the text, throughout *)
Definition subjectsOk (db : msgdb) : Prop := forall i m, In (i, m) (dbMsgs db) -> mSubject m = subjectOf (mText m).
Lemma subjects_upd db p (f : msgRow -> msgRow) : (forall m, mSubject (f m) = mSubject m /\ mText (f m) = mText m) -> subjectsOk db ->
  forall i m, In (i, m) (tupd p f (dbMsgs db)) -> mSubject m = subjectOf (mText m).
Proof.
  intros F S i m I. apply In_tupd in I as ([j x] & J & E). cbn [fst snd] in E. destruct (p j x).
  - apply pair_equal_spec in E as [_ ->]. destruct (F x) as [-> ->]. exact (S j x J).
  - apply pair_equal_spec in E as [_ ->]. exact (S j x J).
Qed.
Lemma subjects_step U o db db' : dexec U o db = Ok db' -> subjectsOk db -> subjectsOk db'.
Proof.
  intros H S. destruct (touchesMsgs o) eqn:T.
  2:{ destruct (dexec_tables2 _ _ _ _ H) as [A _]. unfold subjectsOk. rewrite (A T). exact S. }
  destruct o; try discriminate T; cbn [dexec] in H.
  - unfold delNym in H. inv1 H. inv1 H. destruct a0. inv1 H. inv1 H. inv1 H. apply Ok_eq in H as <-.
    intros i m. cbn [cascadeNym cascadeMsgs withOut withMsgs dbMsgs]. rewrite In_tdel. intros [I _]. exact (S i m I).
  - unfold addMessage in H. inv1 H. inv1 H. inv1 H. inv1 H. apply Ok_eq in H as <-. intros i m. cbn [withMsgs dbMsgs]. rewrite In_tins.
    intros [I|X]; [exact (S i m I)|]. apply pair_equal_spec in X as [_ ->]. reflexivity.
  - apply Ok_eq in H as <-. intros i m I. cbn [withOut withMsgs dbMsgs] in I. revert I. apply (subjects_upd db); [intros x; split; reflexivity|exact S].
  - unfold delMessage in H. inv1 H. inv1 H. inv1 H. apply Ok_eq in H as <-.
    intros i m. cbn [cascadeMsgs withOut withMsgs dbMsgs]. rewrite In_tdel. intros [I _]. exact (S i m I).
  - unfold addOutQueue in H. inv1 H. inv1 H. inv1 H. apply Ok_eq in H as <-. intros i m I. cbn [withOut withMsgs dbMsgs] in I. revert I. apply (subjects_upd db); [intros x; split; reflexivity|exact S].
  - unfold removeOutQueue in H. inv1 H. apply Ok_eq in H as <-. intros i m I. cbn [withOut withMsgs dbMsgs] in I. revert I. apply (subjects_upd db); [intros x; split; reflexivity|exact S].
  - unfold retractOutQueue in H. inv1 H. apply Ok_eq in H as <-. intros i m I. cbn [withOut withMsgs dbMsgs] in I. revert I. apply (subjects_upd db); [intros x; split; reflexivity|exact S].
  - unfold removeInQueue in H. inv1 H. inv1 H. inv1 H. inv1 H. apply Ok_eq in H as <-. intros i m. cbn [withIn withMsgs dbMsgs].
    destruct drop; [exact (S i m)|]. rewrite In_tins. intros [I|X]; [exact (S i m I)|]. apply pair_equal_spec in X as [_ ->]. reflexivity.
Qed.
Lemma subjects_run U ops : subjectsOk (drun U ops emptyDB).
Proof.
  assert (forall db, subjectsOk db -> subjectsOk (drun U ops db)) as G; [|apply G; intros i m []].
  induction ops as [|o ops IH]; intros db S; [exact S|]. apply (IH (dstep U db o)). unfold dstep.
  destruct (dexec U o db) eqn:E; try exact S. eapply subjects_step; eassumption.
Qed.
Lemma cutOn_none c s : ~ In c s -> cutOn c s = None.
Proof.
  induction s as [|x s IH]; intros N; [reflexivity|]. cbn [cutOn]. destruct (N.eqb_spec x c) as [->|_]; [elim N; left; reflexivity|].
  rewrite IH by (intros I; apply N; right; exact I). reflexivity.
Qed.
Lemma cutOn_at c a b : ~ In c a -> cutOn c (a ++ c :: b) = Some (a, b).
Proof.
  induction a as [|x a IH]; intros N; cbn [app cutOn]; [rewrite N.eqb_refl; reflexivity|].
  destruct (N.eqb_spec x c) as [->|_]; [elim N; left; reflexivity|]. rewrite IH by (intros I; apply N; right; exact I). reflexivity.
Qed.
Lemma subjectOf_upTo text : upTo10 text (subjectOf text).
Proof.
  unfold subjectOf. assert (forall t, match cutOn 10 t with Some (a, b) => t = a ++ 10 :: b /\ ~ In 10 a | None => ~ In 10 t end) as C.
  { clear. induction t as [|x t IH]; [intros []|]. cbn [cutOn]. destruct (N.eqb_spec x 10) as [->|NE]; [split; [reflexivity|intros []]|].
    destruct (cutOn 10 t) as [[a b]|].
    - destruct IH as [-> N]. split; [reflexivity|]. intros [I|I]; [exact (NE I)|exact (N I)].
    - intros [I|I]; [exact (NE I)|exact (IH I)]. }
  specialize (C text). destruct (cutOn 10 text) as [[a b]|].
  - destruct C as [E N]. exists (10 :: b). split; [exact E|]. split; [exact N|]. right. exists b. reflexivity.
  - exists []. split; [rewrite app_nil_r; reflexivity|]. split; [exact C|]. left. reflexivity.
Qed.
(* the lines of a text all of whose lines are ended *)
Fixpoint endedLines (s cur : bytes) : list bytes :=
  match s with
  | [] => match cur with [] => [] | _ => [cur] end
  | c :: s' => if c =? 10 then cur :: endedLines s' [] else endedLines s' (cur ++ [c])
  end.
Lemma endedLines_one l : forall r cur, ~ In 10 l -> endedLines (l ++ 10 :: r) cur = (cur ++ l) :: endedLines r [].
Proof.
  induction l as [|c l IH]; intros r cur N; cbn [app endedLines]; [rewrite N.eqb_refl, app_nil_r; reflexivity|].
  destruct (N.eqb_spec c 10) as [->|_]; [elim N; left; reflexivity|]. rewrite IH by (intros I; apply N; right; exact I).
  rewrite <- app_assoc. reflexivity.
Qed.
Lemma dec_digits u c : In c (decimal u) -> 48 <= c <= 57.
Proof.
  unfold decimal. intros I. apply in_rev in I. revert I. generalize (S (N.to_nat (N.log2 u))) as f. intros f. revert u.
  induction f as [|f IH]; intros u I; [destruct I|]. cbn [dec_rev] in I.
  destruct (u <? 10) eqn:L; cbn [In] in I.
  - destruct I as [<-|[]]. lia.
  - destruct I as [<-|I]; [pose proof (N.mod_lt u 10 ltac:(discriminate)); lia|]. exact (IH _ I).
Qed.
Theorem C177_partial : forall U D ops id out, let db := drun U ops emptyDB in msgList U D id db = Ok out ->
  exists my u, imap U id = Ok my /\ qNymUID my db = Ok u /\
    let own := filter (fun r => mSelf (snd r) =? u) (dbMsgs db) in
    ((forall i m, In (i, m) own -> plainCell (mFrom m) /\ plainCell (mTo m)) ->
     Forall2 (fun (l : bytes) r => let '(i, m) := r in
        exists s, upTo10 (mText m) s
          /\ splitN 5 9 l = [mark m ++ [32] ++ decimal i; listDate D (mDate m); mFrom m; mTo m; s])
       (endedLines out []) own).
Proof.
  intros U D ops id out db H. unfold msgList in H. destruct (imap U id) as [my| |]; try discriminate H. cbn [rbind] in H.
  destruct (getMsgIDs U my db) as [ids| |] eqn:EM; try discriminate H. cbn [rbind] in H. apply Ok_eq in H.
  unfold getMsgIDs in EM. inv1 EM. inv1 EM. apply Ok_eq in EM. exists my, a0. split; [reflexivity|]. split; [assumption|].
  cbv zeta. intros P. subst out. subst ids.
  assert (forall i m, In (i, m) (filter (fun r => mSelf (snd r) =? a0) (dbMsgs db)) -> mSubject m = subjectOf (mText m)) as SU.
  { intros i m I. apply filter_In in I as [I _]. exact (subjects_run U ops i m I). }
  unfold tsel. revert P SU. generalize (filter (fun r : N * msgRow => mSelf (snd r) =? a0) (dbMsgs db)) as own. clear.
  induction own as [|[i m] own IH]; intros P SU; [constructor|].
  cbn [map concat fst snd]. destruct (P i m (or_introl eq_refl)) as [[F9 F10] [T9 T10]]. pose proof (SU i m (or_introl eq_refl)) as S.
  destruct (subjectOf_upTo (mText m)) as (r & R1 & R2 & R3). rewrite <- S in R1, R2.
  assert (forall c, In c (mark m ++ [32] ++ decimal i) -> c <> 9 /\ c <> 10) as M.
  { intros c I. apply in_app_or in I as [I|[<-|I]]; [|split; discriminate|pose proof (dec_digits i c I); lia].
    unfold mark in I. destruct (mDir m), (mRead m), (mSent m); cbn in I; (destruct I as [<-|[<-|[]]]; split; discriminate). }
  pose proof (listDate_plain D (mDate m)) as LD.
  set (l := (mark m ++ [32] ++ decimal i) ++ 9 :: listDate D (mDate m) ++ 9 :: mFrom m ++ 9 :: mTo m ++ 9 :: mSubject m).
  assert (msgLine D (i, mFrom m, mTo m, negb (mDir m), mSent m, mDate m, mSubject m, mRead m) = l ++ [10]) as ->.
  { unfold msgLine, l, mark. destruct (mDir m), (mRead m), (mSent m); cbn [negb]; rewrite <- ?app_assoc; cbn [app]; rewrite <- ?app_assoc; cbn [app];
      rewrite <- ?app_assoc; cbn [app]; rewrite <- ?app_assoc; cbn [app]; rewrite <- ?app_assoc; reflexivity. }
  rewrite <- app_assoc. cbn [app]. rewrite endedLines_one.
  2:{ unfold l. intros I. apply in_app_or in I as [I|[I|I]]; [apply (M 10 I); reflexivity|discriminate I|].
      apply in_app_or in I as [I|[I|I]]; [apply (LD 10 I); reflexivity|discriminate I|].
      apply in_app_or in I as [I|[I|I]]; [exact (F10 I)|discriminate I|]. apply in_app_or in I as [I|[I|I]]; [exact (T10 I)|discriminate I|exact (R2 I)]. }
  cbn [app]. constructor.
  - exists (mSubject m). split; [exists r; split; [exact R1|split; [exact R2|exact R3]]|].
    unfold l. cbn [splitN]. rewrite cutOn_at by (intros I; apply (proj1 (M 9 I)); reflexivity).
    rewrite cutOn_at by (intros I; apply (proj1 (LD 9 I)); reflexivity). rewrite cutOn_at by exact F9. rewrite cutOn_at by exact T9. reflexivity.
  - apply IH; [intros j x I; apply (P j x); right; exact I|intros j x I; apply (SU j x); right; exact I].
Qed.
Definition exList : list dop :=
  [DAddNym exAnn (str "Ann@b.de") []; DAddNym (str "bob@b.de") (str "bob@b.de") []; DAddContact exAnn exCat exCat (str "Carl") 0;
   DAddContact (str "bob@b.de") exCat exCat [] 0; DAddMessage exAnn exCat 3 true (str "one" ++ [9; 10] ++ str "x") false 0 0;
   DAddMessage (str "bob@b.de") exCat 3 true (str "hers") false 0 0; DAddInQueue exAnn exCat 5 (str "e"); DSetInQueue 1 (str "d");
   DRemoveInQueue 1 (str "two") exCat false].
Definition exOut : bytes :=
  str "<P 1" ++ [9] ++ str "3" ++ [9] ++ exAnn ++ [9] ++ exCat ++ [9] ++ str "one" ++ [9; 10]
  ++ str ">N 3" ++ [9] ++ str "5" ++ [9] ++ exCat ++ [9] ++ exAnn ++ [9] ++ str "two" ++ [10].
Example C177_ex : msgList goUnicode exD (str "Ann@b.de") (drun goUnicode exList emptyDB) = Ok exOut.
Proof. vm_compute. reflexivity. Qed.
(* An address with a line end, which contacts may have, breaks the list: there are more lines than messages. *)
Definition exOdd : bytes := str "cat@b" ++ [10] ++ str "de".  (* the domain of an address is not checked *)
Theorem C177_refuted : exists ops id out, let db := drun goUnicode ops emptyDB in
  msgList goUnicode exD id db = Ok out /\ length (dbMsgs db) = 1%nat /\ length (endedLines out []) = 2%nat.
Proof.
  exists [DAddNym exAnn (str "Ann@b.de") []; DAddContact exAnn exOdd exOdd [] 0; DAddMessage exAnn exOdd 3 true (str "x") false 0 0], exAnn.
  exists (match msgList goUnicode exD exAnn (drun goUnicode [DAddNym exAnn (str "Ann@b.de") []; DAddContact exAnn exOdd exOdd [] 0; DAddMessage exAnn exOdd 3 true (str "x") false 0 0] emptyDB) with Ok o => o | _ => [] end).
  vm_compute. repeat split.
Qed.

(* ------------------------------------------------------------------ *)
(* Deleting: exactly the numbered message of the user goes (with its queue entries), and only if it is the user's. *)
Theorem C174_delete : forall U id n db db', msgDelete U id n db = Ok db' ->
  exists my u m, imap U id = Ok my /\ qNymUID my db = Ok u /\ In (n, m) (dbMsgs db) /\ mSelf m = u
    /\ dbMsgs db' = filter (fun r => negb ((fst r =? n) && (mSelf (snd r) =? u))) (dbMsgs db)
    /\ dbKV db' = dbKV db /\ dbNyms db' = dbNyms db /\ dbContacts db' = dbContacts db /\ dbAccounts db' = dbAccounts db
    /\ dbIn db' = dbIn db /\ dbIds db' = dbIds db.
Proof.
  intros U id n db db' H. unfold msgDelete in H. destruct (imap U id) as [my| |]; try discriminate H. cbn [rbind] in H.
  unfold delMessage in H. inv1 H. inv1 H. inv1 H. apply Ok_eq in H as <-.
  match goal with X : thas _ _ = true |- _ => apply existsb_exists in X as ([i m] & I & P) end. cbn [fst snd] in P. apply andb_true_iff in P as [P1 P2].
  apply N.eqb_eq in P1 as ->. apply N.eqb_eq in P2.
  exists my, a0, m. split; [reflexivity|]. split; [assumption|]. split; [exact I|]. split; [exact P2|]. repeat split.
Qed.
Example C174_delete_ex : exists db', msgDelete goUnicode exAnn 3 (drun goUnicode exList emptyDB) = Ok db' /\ map fst (dbMsgs db') = [1; 2].
Proof. eexists. split; vm_compute; reflexivity. Qed.
Example C174_delete_other : exists e, msgDelete goUnicode exAnn 2 (drun goUnicode exList emptyDB) = Err e.
Proof. eexists. vm_compute. reflexivity. Qed.

Print Assumptions C174_partial.
Print Assumptions C174_name_refuted.
Print Assumptions C174_subject_refuted.
Print Assumptions C174_delete.
Print Assumptions C175_add.
Print Assumptions C175_accepts.
Print Assumptions C176_mail.
Print Assumptions C176_view_partial.
Print Assumptions C176_encoded_refuted.
Print Assumptions C176_name_refuted.
Print Assumptions C177_partial.
Print Assumptions C177_refuted.
