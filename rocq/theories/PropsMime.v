(* Theorems for C21 (envelope), C22, C99-C101: composing and parsing MIME messages. *)
From Verif Require Import Base Base64Model Base64Proofs CodecModel CodecProofs IdentityModel IdentityProofs Utf8Model MimeModel MimeProofs.
From Coq Require Import Permutation.
Local Open Scope N_scope.
Delimit Scope string_scope with string.

(* ---- a library satisfying the laws of MimeLib ---- *)
Definition isAddr (a : bytes) : bool :=
  match cut1 64 a with Some (l, d) => forallb atom (splitOn 46 l) && forallb atom (splitOn 46 d) | None => false end.
Definition simpleAddrs (s : bytes) : res (list bytes) :=
  let l := map trim (splitOn 44 s) in if forallb isAddr l then Ok l else Err "mail: no angle-addr".
Definition simpleType (e : bytes) : bytes := if beq e (str ".txt") then str "text/plain; charset=utf-8" else [].
Lemma isAtext_range c : isAtext c = true -> 33 <= c <= 126 /\ c <> 44 /\ c <> 46 /\ c <> 64.
Proof.
  unfold isAtext. intros H. apply orb_true_iff in H as [H|H]; [unfold isAlnum in H; lia|].
  apply existsb_exists in H as (x & I & E). apply N.eqb_eq in E as ->. cbn in I.
  repeat (destruct I as [<-|I]; [repeat split; try discriminate; lia|]). destruct I.
Qed.
Lemma atom_chars s c : atom s = true -> In c s -> 33 <= c <= 126 /\ c <> 44 /\ c <> 46 /\ c <> 64.
Proof. unfold atom. intros H I. apply andb_true_iff in H as [_ H]. rewrite forallb_forall in H. apply isAtext_range, H, I. Qed.
Lemma dotAtom_chars s c : dotAtom s -> In c s -> 33 <= c <= 126 /\ c <> 44 /\ c <> 64.
Proof.
  induction 1 as [s A|s t A D IH]; intros I; [pose proof (atom_chars s c A I); tauto|].
  apply in_app_or in I as [I|[<-|I]]; [pose proof (atom_chars s c A I); tauto|repeat split; try discriminate; lia|auto].
Qed.
Lemma dotAtom_split s : dotAtom s -> forallb atom (splitOn 46 s) = true.
Proof.
  induction 1 as [s A|s t A D IH].
  - rewrite splitOn_none by (intros I; pose proof (atom_chars s 46 A I) as (_ & _ & E & _); apply E; reflexivity). cbn [forallb]. rewrite A. reflexivity.
  - change (s ++ [46] ++ t) with (s ++ 46 :: t).
    rewrite splitOn_app by (intros I; pose proof (atom_chars s 46 A I) as (_ & _ & E & _); apply E; reflexivity). cbn [forallb]. rewrite A, IH. reflexivity.
Qed.
Lemma dotAtom_nonnil s : dotAtom s -> s <> [].
Proof.
  assert (forall s, atom s = true -> s <> []) as A by (intros [|c u] H; [discriminate|discriminate]).
  destruct 1 as [s H|s t H _]; [exact (A s H)|]. destruct s; discriminate.
Qed.
Lemma addr_chars a c : addrSpec a -> In c a -> 33 <= c <= 126 /\ c <> 44.
Proof.
  intros (l & d & -> & L & D) I. apply in_app_or in I as [I|[<-|I]]; [pose proof (dotAtom_chars l c L I); tauto|split; [lia|discriminate]|].
  pose proof (dotAtom_chars d c D I); tauto.
Qed.
Lemma addr_nonnil a : addrSpec a -> a <> [].
Proof. intros (l & d & -> & _). destruct l; discriminate. Qed.
Lemma all_trim a : (forall c, In c a -> 33 <= c <= 126) -> trim a = a.
Proof.
  intros H. destruct a as [|x a]; [reflexivity|]. apply trim_id.
  - specialize (H x (or_introl eq_refl)). cbn [hd]. unfold is_wsp. lia.
  - destruct (exists_last (l := x :: a)) as (u & z & E); [discriminate|]. rewrite E in *. rewrite last_last.
    specialize (H z ltac:(apply in_or_app; right; left; reflexivity)). unfold is_wsp. lia.
Qed.
Lemma isAddr_spec a : addrSpec a -> isAddr a = true.
Proof.
  intros (l & d & -> & L & D). unfold isAddr. change (l ++ [64] ++ d) with (l ++ 64 :: d).
  rewrite cut1_app by (intros I; pose proof (dotAtom_chars l 64 L I) as (_ & _ & E); apply E; reflexivity).
  rewrite !dotAtom_split by assumption. reflexivity.
Qed.
Lemma simple_specs l : l <> [] -> Forall addrSpec l -> simpleAddrs (join [44] l) = Ok l.
Proof.
  intros N F. assert (splitOn 44 (join [44] l) = l) as S.
  { induction F as [|a l A F IH]; [elim N; reflexivity|].
    assert (~ In 44 a) as NI by (intros I; pose proof (addr_chars a 44 A I) as [_ E]; apply E; reflexivity).
    destruct l as [|a2 l]; [apply splitOn_none; exact NI|]. change (join [44] (a :: a2 :: l)) with (a ++ 44 :: join [44] (a2 :: l)).
    rewrite splitOn_app by exact NI. f_equal. apply IH. discriminate. }
  unfold simpleAddrs. rewrite S. cbv zeta.
  assert (map trim l = l) as ->.
  { clear N S. induction F as [|a l A F IH]; [reflexivity|]. cbn [map]. rewrite IH, all_trim; [reflexivity|]. intros c I. apply (addr_chars a c A I). }
  assert (forallb isAddr l = true) as ->; [|reflexivity].
  apply forallb_forall. intros a I. apply isAddr_spec. rewrite Forall_forall in F. apply F, I.
Qed.
Lemma simpleType_clean e : clean (simpleType e) = true.
Proof. unfold simpleType. destruct (beq e (str ".txt")); reflexivity. Qed.
Lemma simple_nopanic s : simpleAddrs s <> Panic.
Proof. unfold simpleAddrs. cbv zeta. destruct (forallb isAddr (map trim (splitOn 44 s))); discriminate. Qed.
Definition simpleLib : MimeLib := {|
  typeByExt := simpleType; parseAddrs := simpleAddrs; quoteAny := fun s => [34] ++ s ++ [34];
  typeByExt_clean := simpleType_clean; parseAddrs_specs := simple_specs; parseAddrs_nopanic := simple_nopanic |}.

(* ---- specification ---- *)
(* text that can stand in a header field *)
Definition fieldText (v : bytes) : Prop :=
  (forall c, In c v -> c <> 10 /\ c <> 13)
  /\ (forall c u, v = c :: u -> c <> 32 /\ c <> 9) /\ (forall c u, v = u ++ [c] -> c <> 32 /\ c <> 9).
Definition headerOk (h : mhdr) : Prop :=
  (mFrom h <> [] /\ fieldText (mFrom h)) /\ (mTo h <> [] /\ fieldText (mTo h)) /\ (mMid h <> [] /\ fieldText (mMid h))
  /\ fieldText (mReply h) /\ match mCc h with None => True | Some l => l <> [] /\ Forall addrSpec l end.
(* [s] is the first line of [msg], without the carriage returns at its end *)
Definition firstLine (msg s : bytes) : Prop :=
  exists k r, msg = s ++ repeat 13 k ++ r /\ (r = [] \/ exists t, r = 10 :: t) /\ ~ In 10 s /\ (forall u, s <> u ++ [13]).
(* subjects that survive: those that are encoded, and those that are plain header text without "=?" *)
Definition subjectOk (s : bytes) : Prop :=
  s <> [] /\ ((exists c, In c s /\ (c < 32 \/ 126 < c) /\ c <> 9) \/ (fieldText s /\ forall u v, s <> u ++ [61; 63] ++ v)).
(* characters that need no quoting in a file name *)
Definition nameChar (c : N) : Prop := isAlnum c = true \/ In c (str "!#$%&'*+-.^_`{|}~").
Definition attOk (a : att) : Prop :=
  aName a <> [] /\ Forall nameChar (aName a) /\ wfb (aData a) /\ fieldText (aType a).
(* [b] is [a] as the recipient sees it *)
Definition received (L : MimeLib) (a b : att) : Prop :=
  aName b = aName a /\ aData b = aData a /\ aInline b = aInline a
  /\ (aType a <> [] -> aType b = aType a)
  /\ (aType a = [] -> forall u e, aName a = u ++ [46] ++ e -> ~ In 46 e ->
        let t := typeByExt L (46 :: e) in (t <> [] -> aType b = t) /\ (t = [] -> aType b = str "application/octet-stream")).
Definition randomOk (rnd : bytes) : Prop := lenN rnd = 30 /\ wfb rnd.
Definition anyOrder (ord : nat -> list bytes -> list bytes) : Prop := forall i ks, Permutation (ord i ks) ks.

(* ---- lemmas ---- *)
Lemma field_clean v : fieldText v -> clean v = true.
Proof.
  intros (A & B & C). unfold clean. apply andb_true_iff. split.
  - apply forallb_forall. intros c I. specialize (A c I). unfold is_nl. lia.
  - destruct v as [|c v]; [reflexivity|]. specialize (B c v eq_refl).
    destruct (exists_last (l := c :: v)) as (u & z & E); [discriminate|]. specialize (C z u E). rewrite E, last_last. unfold is_wsp. lia.
Qed.
Lemma graph_clean v : (forall c, In c v -> 33 <= c <= 126) -> clean v = true.
Proof.
  intros H. apply field_clean. repeat split; try (specialize (H c H0); lia); intros ->;
    match goal with E : v = _ |- _ => specialize (H _ ltac:(rewrite E; first [left; reflexivity|apply in_or_app; right; left; reflexivity])); lia end.
Qed.
Lemma split_first msg s : firstLine msg s -> fst (splitMessage msg) = s.
Proof.
  intros (k & r & -> & R & N10 & N13). unfold splitMessage.
  assert (forall l, ~ In 10 l -> cut_nl (l ++ r) = match r with [] => (l, None) | _ :: t => (l, Some t) end) as C.
  { intros l. induction l as [|x l IH]; intros H.
    - destruct R as [->|[t ->]]; reflexivity.
    - cbn [app cut_nl]. destruct (N.eqb_spec x 10) as [->|_]; [elim H; left; reflexivity|].
      rewrite IH by (intros I; apply H; right; exact I). destruct r; reflexivity. }
  rewrite app_assoc, C; [|intros I; apply in_app_or in I as [I|I]; [exact (N10 I)|apply repeat_spec in I; discriminate]].
  assert (rev (dropCR (rev (s ++ repeat 13 k))) = s) as E.
  { rewrite rev_app_distr. assert (forall n, rev (repeat 13 n) = repeat 13 n) as RR.
    { intros n. induction n as [|n IH]; [reflexivity|]. cbn [repeat rev]. rewrite IH. clear. induction n as [|n IH]; [reflexivity|]. cbn [repeat app]. rewrite IH. reflexivity. }
    rewrite RR. clear RR C. induction k as [|k IH]; [|exact IH]. cbn [repeat app].
    destruct s as [|x s'] using rev_ind; [reflexivity|]. rewrite rev_app_distr. cbn [rev app].
    assert (x <> 13) as NX by (intros ->; apply (N13 s'); reflexivity).
    assert (dropCR (x :: rev s') = x :: rev s') as ->.
    { cbn [dropCR]. destruct x as [|p]; [reflexivity|]. do 4 (destruct p as [p|p|]; try reflexivity). elim NX; reflexivity. }
    cbn [rev]. rewrite rev_involutive. reflexivity. }
  destruct r; exact E.
Qed.
Lemma subject_clean mx s : wfb s -> subjectOk s -> clean (qEncode mx s) = true /\ qEncode mx s <> [] /\ decodeHeader (qEncode mx s) = Ok s.
Proof.
  intros W (N & [(c & I & C & C9)|(F & Q)]).
  - assert (needsEncoding s = true) as NE by (unfold needsEncoding; apply existsb_exists; exists c; split; [exact I|lia]).
    destruct (qEncode_clean mx s W N NE). split; [|split]; [assumption|assumption|]. apply decode_qEncode; assumption.
  - destruct (needsEncoding s) eqn:NE.
    + destruct (qEncode_clean mx s W N NE). split; [|split]; [assumption|assumption|]. apply decode_qEncode; assumption.
    + unfold qEncode. rewrite NE. split; [|split]; [apply field_clean; exact F|exact N|apply decodeHeader_plain; exact Q].
Qed.
Lemma nameChar_tok c : nameChar c -> isTok c = true /\ c <> 47 /\ 33 <= c <= 126.
Proof.
  intros [A|A].
  - split; [apply isTok_alnum; exact A|]. unfold isAlnum in A. lia.
  - cbn in A. repeat (destruct A as [<-|A]; [repeat split; try reflexivity; try discriminate; lia|]). destruct A.
Qed.
Lemma name_tok n : Forall nameChar n -> forallb isTok n = true.
Proof. intros F. apply forallb_forall. intros c I. rewrite Forall_forall in F. apply nameChar_tok, F, I. Qed.
(* file names without '/' *)
Lemma base_plain n : n <> [] -> ~ In 47 n -> fpBase n = n.
Proof.
  intros N S. unfold fpBase. destruct (beq n []) eqn:B; [apply beq_spec in B; contradiction|]. cbv zeta.
  set (ds := fix dropSlash (s : bytes) := match s with 47 :: s' => dropSlash s' | _ => s end).
  set (up := fix upto (s : bytes) := match s with [] => [] | c :: s' => if c =? 47 then [] else c :: upto s' end).
  assert (ds (rev n) = rev n) as ->.
  { destruct (rev n) as [|c r] eqn:E; [reflexivity|]. assert (c <> 47) as C.
    { intros ->. apply S. apply in_rev. rewrite E. left. reflexivity. }
    destruct c as [|p]; [reflexivity|]. do 6 (destruct p as [p|p|]; try reflexivity). elim C; reflexivity. }
  destruct (beq (rev n) []) eqn:B2; [apply beq_spec in B2; elim N; rewrite <- (rev_involutive n), B2; reflexivity|].
  assert (forall s, ~ In 47 s -> up s = s) as U.
  { intros s. induction s as [|c s IH]; [reflexivity|]. intros H. change (up (c :: s)) with (if c =? 47 then [] else c :: up s).
    destruct (N.eqb_spec c 47) as [->|_]; [elim H; left; reflexivity|]. rewrite IH by (intros I; apply H; right; exact I). reflexivity. }
  rewrite U by (intros I; apply S, in_rev; exact I). apply rev_involutive.
Qed.
Lemma ext_dot u e : ~ In 46 e -> ~ In 47 (u ++ [46] ++ e) -> fpExt (u ++ [46] ++ e) = 46 :: e.
Proof.
  intros NE NS. unfold fpExt.
  set (go := fix go (s acc : bytes) := match s with [] => [] | c :: s' => if c =? 46 then c :: acc else if c =? 47 then [] else go s' (c :: acc) end).
  rewrite !rev_app_distr. cbn [rev app]. rewrite <- app_assoc.
  assert (forall x acc y, ~ In 46 x -> ~ In 47 x -> go (x ++ 46 :: y) acc = 46 :: rev x ++ acc) as G.
  { intros x. induction x as [|c x IH]; intros acc y A B; [reflexivity|].
    change (go ((c :: x) ++ 46 :: y) acc) with (if c =? 46 then c :: acc else if c =? 47 then [] else go (x ++ 46 :: y) (c :: acc)).
    destruct (N.eqb_spec c 46) as [->|_]; [elim A; left; reflexivity|]. destruct (N.eqb_spec c 47) as [->|_]; [elim B; left; reflexivity|].
    rewrite IH by (intros I; first [apply A; right; exact I|apply B; right; exact I]). cbn [rev]. rewrite <- app_assoc. reflexivity. }
  cbn [app]. rewrite G; [rewrite rev_involutive, app_nil_r; reflexivity|intros I; apply NE, in_rev; exact I|].
  intros I. apply NS. apply in_or_app. right. right. apply in_rev. exact I.
Qed.

Section Compose.
Variable L : MimeLib.
Variable mx : N.
Definition mailFields (h : mhdr) (subject b : bytes) : list (bytes * bytes) :=
  [(str "From", mFrom h); (str "To", mTo h)]
  ++ (match mCc h with None => [] | Some l => [(str "Cc", join [44] l)] end)
  ++ (if beq subject [] then [] else [(str "Subject", qEncode mx subject)])
  ++ [(str "Message-ID", mMid h)]
  ++ (if beq (mReply h) [] then [] else [(str "In-Reply-To", mReply h)])
  ++ [(str "MIME-Version", str "1.0"); (str "Content-Type", str "multipart/mixed; boundary=" ++ b)].
Lemma lines_app a b : lines (a ++ b) = lines a ++ lines b.
Proof. unfold lines. rewrite map_app, concat_app. reflexivity. Qed.
Lemma mailHeader_lines h subject b : mailHeader mx h subject b = lines (mailFields h subject b) ++ CRLF.
Proof.
  unfold mailHeader, mailFields. rewrite !lines_app, <- !app_assoc. unfold lines.
  destruct (mCc h); destruct (beq subject []); destruct (beq (mReply h) []); cbn [map concat app fst snd]; rewrite ?app_nil_r, <- ?app_assoc; reflexivity.
Qed.
Lemma join_chars l c : Forall addrSpec l -> In c (join [44] l) -> 33 <= c <= 126.
Proof.
  induction 1 as [|a l A F IH]; [intros []|]. destruct l as [|a2 l]; intros I; [apply (addr_chars a c A I)|].
  change (join [44] (a :: a2 :: l)) with (a ++ 44 :: join [44] (a2 :: l)) in I. apply in_app_or in I as [I|[<-|I]]; [apply (addr_chars a c A I)|lia|auto].
Qed.
Lemma join_nonnil l : l <> [] -> Forall addrSpec l -> join [44] l <> [].
Proof.
  intros N F. destruct F as [|a l A F]; [elim N; reflexivity|]. pose proof (addr_nonnil a A) as NA.
  destruct a; [elim NA; reflexivity|]. destruct l; discriminate.
Qed.
Lemma mailFields_good h subject b : headerOk h -> (subject = [] \/ clean (qEncode mx subject) = true) -> forallb isTok b = true -> b <> [] ->
  Forall goodField (mailFields h subject b).
Proof.
  intros ((_ & F1) & (_ & F2) & (_ & F3) & F4 & CC) SU B BN. unfold mailFields.
  assert (forall k v, k <> [] -> forallb keyByte k = true -> clean v = true -> goodField (k, v)) as G by (intros k v; unfold goodField; cbn; auto).
  apply Forall_app; split; [constructor; [|constructor; [|constructor]]; apply G; try discriminate; try reflexivity; apply field_clean; assumption|].
  apply Forall_app; split.
  { destruct (mCc h) as [l|]; [|constructor]. constructor; [|constructor]. apply G; [discriminate|reflexivity|]. destruct CC as [_ CC].
    apply graph_clean. intros c. apply join_chars. exact CC. }
  apply Forall_app; split.
  { destruct SU as [->|SU]; [constructor|]. destruct (beq subject []); [constructor|]. constructor; [|constructor]. apply G; [discriminate|reflexivity|exact SU]. }
  apply Forall_app; split; [constructor; [|constructor]; apply G; [discriminate|reflexivity|apply field_clean; exact F3]|].
  apply Forall_app; split.
  { destruct (beq (mReply h) []); [constructor|]. constructor; [|constructor]. apply G; [discriminate|reflexivity|apply field_clean; exact F4]. }
  constructor; [apply G; [discriminate|reflexivity|reflexivity]|]. constructor; [|constructor]. apply G; [discriminate|reflexivity|].
  assert (forall c, In c b -> 33 <= c <= 126) as BC by (intros c I; rewrite forallb_forall in B; apply (isTok_plain c (B c I))).
  unfold clean. apply andb_true_iff. split.
  - apply forallb_app_iff. split; [reflexivity|]. apply forallb_forall. intros c I. specialize (BC c I). unfold is_nl. lia.
  - change (str "multipart/mixed; boundary=" ++ b) with (109 :: (str "ultipart/mixed; boundary=" ++ b)). cbn iota.
    change (109 :: (str "ultipart/mixed; boundary=" ++ b)) with (str "multipart/mixed; boundary=" ++ b). rewrite last_app by exact BN.
    destruct (exists_last BN) as (u & z & ->). rewrite last_last. specialize (BC z ltac:(apply in_or_app; right; left; reflexivity)). unfold is_wsp. lia.
Qed.
(* the fields as they are read *)
Definition readFields (h : mhdr) (subject b : bytes) := map (fun p => (canon (fst p), snd p)) (mailFields h subject b).
Lemma get_fields h subject b : let f := readFields h subject b in
  hget (str "From") f = mFrom h /\ hget (str "To") f = mTo h
  /\ hget (str "Cc") f = (match mCc h with None => [] | Some l => join [44] l end)
  /\ hget (str "Subject") f = (if beq subject [] then [] else qEncode mx subject)
  /\ hget (str "Message-Id") f = mMid h /\ hget (str "In-Reply-To") f = mReply h
  /\ hget (str "Mime-Version") f = str "1.0" /\ hget (str "Content-Type") f = str "multipart/mixed; boundary=" ++ b.
Proof.
  cbv zeta. unfold readFields, mailFields. destruct (beq (mReply h) []) eqn:R; destruct (mCc h); destruct (beq subject []);
    repeat split; try reflexivity; apply beq_spec in R; rewrite R; reflexivity.
Qed.
Lemma ccList_fields h : headerOk h -> ccList L (match mCc h with None => [] | Some l => join [44] l end) = Ok (mCc h).
Proof.
  intros (_ & _ & _ & _ & CC). unfold ccList. destruct (mCc h) as [l|]; [|reflexivity]. destruct CC as [N F].
  destruct (beq (join [44] l) []) eqn:B; [apply beq_spec in B; elim (join_nonnil l N F B)|].
  rewrite (parseAddrs_specs L l N F). cbn [rbind]. destruct l; [elim N; reflexivity|reflexivity].
Qed.

(* the first part *)
Lemma text_fields (o : list bytes) : Permutation o textKeys ->
  Forall goodField (ordFields o textHeader) /\ Forall canonical (ordFields o textHeader)
  /\ hget (str "Content-Type") (ordFields o textHeader) = str "text/plain"
  /\ hget (str "Content-Transfer-Encoding") (ordFields o textHeader) = str "base64".
Proof.
  intros P. assert (NoDup o) as ND.
  { apply (Permutation_NoDup (l := textKeys)); [apply Permutation_sym; exact P|]. unfold textKeys. constructor; [intros [E|[]]; discriminate|constructor; [intros []|constructor]]. }
  split; [|split; [|split]].
  - apply Forall_ordFields. constructor; [|constructor; [|constructor]]; (split; [discriminate|split; reflexivity]).
  - apply Forall_ordFields. constructor; [|constructor; [|constructor]]; reflexivity.
  - unfold hget. rewrite hvalues_ord; [reflexivity|exact ND|]. apply (Permutation_in (l := textKeys)); [apply Permutation_sym; exact P|]. left. reflexivity.
  - unfold hget. rewrite hvalues_ord; [reflexivity|exact ND|]. apply (Permutation_in (l := textKeys)); [apply Permutation_sym; exact P|]. right. left. reflexivity.
Qed.
(* attachments *)
Lemma attType_clean a : fieldText (aType a) -> clean (attType L a) = true /\ attType L a <> [].
Proof.
  intros F. unfold attType. destruct (beq (aType a) []) eqn:B; cbn [negb].
  - destruct (beq (typeByExt L (fpExt (fpBase (aName a)))) []) eqn:B2; cbn [negb]; [split; [reflexivity|discriminate]|].
    split; [apply typeByExt_clean|]. intros E. rewrite E in B2. discriminate.
  - split; [apply field_clean; exact F|]. intros E. rewrite E in B. discriminate.
Qed.
Definition nameOk (n : bytes) : Prop := n <> [] /\ ~ In 47 n /\ fieldText (str "filename=" ++ n).
Lemma att_fields (o : list bytes) a : Permutation o attKeys -> nameOk (aName a) -> fieldText (aType a) ->
  Forall goodField (ordFields o (attHeader L a)) /\ Forall canonical (ordFields o (attHeader L a))
  /\ hget (str "Content-Type") (ordFields o (attHeader L a)) = attType L a
  /\ hvalues (str "Content-Disposition") (ordFields o (attHeader L a)) = (str "attachment; filename=" ++ aName a) :: (if aInline a then [str "inline"] else []).
Proof.
  intros P (NN & NS & FN) FT. assert (NoDup o) as ND.
  { apply (Permutation_NoDup (l := attKeys)); [apply Permutation_sym; exact P|]. unfold attKeys.
    constructor; [intros [E|[E|[]]]; discriminate|]. constructor; [intros [E|[]]; discriminate|]. constructor; [intros []|constructor]. }
  assert (fpBase (aName a) = aName a) as BN by (apply base_plain; assumption).
  assert (clean (str "attachment; filename=" ++ fpBase (aName a)) = true) as CN.
  { rewrite BN. apply field_clean. destruct FN as (A & B & C). repeat split.
    - change (str "attachment; filename=" ++ aName a) with (str "attachment; " ++ (str "filename=" ++ aName a)) in H. apply in_app_or in H as [H|H]; [|apply (A c H)].
      cbn in H. repeat (destruct H as [<-|H]; [discriminate|]). destruct H.
    - change (str "attachment; filename=" ++ aName a) with (str "attachment; " ++ (str "filename=" ++ aName a)) in H. apply in_app_or in H as [H|H]; [|apply (A c H)].
      cbn in H. repeat (destruct H as [<-|H]; [discriminate|]). destruct H.
    - injection H as <- _. discriminate.
    - injection H as <- _. discriminate.
    - destruct (exists_last NN) as (w & z & E). rewrite E in H, C. rewrite !app_assoc in *. apply app_inj_tail in H as [_ <-]. apply (C z (str "filename=" ++ w) eq_refl).
    - destruct (exists_last NN) as (w & z & E). rewrite E in H, C. rewrite !app_assoc in *. apply app_inj_tail in H as [_ <-]. apply (C z (str "filename=" ++ w) eq_refl). }
  assert (forall k v, k <> [] -> forallb keyByte k = true -> clean v = true -> goodField (k, v)) as G by (intros k v; unfold goodField; cbn; auto).
  split; [|split; [|split]].
  - apply Forall_ordFields. unfold attHeader. apply Forall_app. split.
    + constructor; [apply G; [discriminate|reflexivity|apply attType_clean; exact FT]|].
      constructor; [apply G; [discriminate|reflexivity|reflexivity]|]. constructor; [|constructor]. apply G; [discriminate|reflexivity|exact CN].
    + destruct (aInline a); [|constructor]. constructor; [|constructor]. apply G; [discriminate|reflexivity|reflexivity].
  - apply Forall_ordFields. unfold attHeader. apply Forall_app. split.
    + constructor; [reflexivity|constructor; [reflexivity|constructor; [reflexivity|constructor]]].
    + destruct (aInline a); [|constructor]. constructor; [reflexivity|constructor].
  - unfold hget. rewrite hvalues_ord; [reflexivity|exact ND|]. apply (Permutation_in (l := attKeys)); [apply Permutation_sym; exact P|]. cbn. auto.
  - rewrite hvalues_ord; [|exact ND|apply (Permutation_in (l := attKeys)); [apply Permutation_sym; exact P|left; reflexivity]].
    unfold attHeader. rewrite BN. destruct (aInline a); reflexivity.
Qed.
Lemma name_nameOk n : n <> [] -> Forall nameChar n -> nameOk n.
Proof.
  intros N F. rewrite Forall_forall in F. assert (forall c, In c (str "filename=" ++ n) -> 33 <= c <= 126) as R.
  { intros c I. apply in_app_or in I as [I|I]; [cbn in I; repeat (destruct I as [<-|I]; [lia|]); destruct I|]. apply (nameChar_tok c (F c I)). }
  split; [exact N|]. split; [intros I; apply F, nameChar_tok in I; tauto|].
  repeat split; try (specialize (R c H); lia); intros ->;
    match goal with E : str "filename=" ++ n = _ |- _ => specialize (R _ ltac:(rewrite E; first [left; reflexivity|apply in_or_app; right; left; reflexivity])); lia end.
Qed.
Lemma media_filename n r : n <> [] -> forallb isTok n = true -> match r with [] => True | c :: _ => isTok c = false end ->
  parseMediaType (str "attachment; filename=" ++ n ++ r) =
  (do ps <- params (List.length (str "; filename=" ++ n ++ r)) [(str "filename", n)] r; Ok (str "attachment", ps)).
Proof.
  intros N T R. change (str "attachment; filename=" ++ n ++ r) with (str "attachment" ++ str "; " ++ str "filename" ++ 61 :: n ++ r).
  rewrite (parseMediaType_params _ _ (str "attachment"));
    [|intros I; cbn in I; repeat (destruct I as [I|I]; [discriminate|]); exact I|reflexivity|reflexivity].
  rewrite (params_step _ [] (str "filename") n _ r); [reflexivity| |reflexivity].
  apply (mediaParam_gen (str "filename")); [discriminate|reflexivity| | |exact N].
  - destruct n as [|c n]; [elim N; reflexivity|]. cbn [forallb] in T. apply andb_true_iff in T as [A _]. apply (isTok_plain c A).
  - assert (consumeValue (n ++ r) = token (n ++ r)) as ->; [|apply token_app; assumption].
    destruct n as [|c n]; [elim N; reflexivity|]. cbn [app consumeValue]. cbn [forallb] in T. apply andb_true_iff in T as [A _].
    apply isTok_plain in A as (_ & A & _). destruct c as [|p]; [reflexivity|]. do 6 (destruct p as [p|p|]; try reflexivity). discriminate.
Qed.
Lemma dispositions_name n inln : n <> [] -> Forall nameChar n ->
  dispositions [] false ((str "attachment; filename=" ++ n) :: (if inln : bool then [str "inline"] else [])) = Ok (n, inln).
Proof.
  intros N F. cbn [dispositions]. pose proof (media_filename n [] N (name_tok n F) I) as M. rewrite app_nil_r in M. rewrite M, params_done. cbn [rbind].
  destruct inln; reflexivity.
Qed.
(* Parse after the header fields *)
Definition parseBody (h : mhdr) (s b body : bytes) : res (mhdr * bytes * bytes * list att) :=
  match nextPart b (mkMR body false false) with
  | NEof | NErr => Err "multipart"
  | NPart ph r =>
    if negb (beq (hget (str "Content-Type") ph) (str "text/plain")) then Err "mime: expected 'text/plain' Content-Type"
    else if negb (beq (hget (str "Content-Transfer-Encoding") ph) (str "base64"))
    then Err "mime: expected 'base64' Content-Transfer-Encoding"
    else
      match readPart (mrLF r) b (mrS r) with
      | None => Err "unexpected EOF"
      | Some (enc, rest) =>
        match b64dec enc with
        | None => Err "illegal base64 data"
        | Some content =>
          do atts <- parseAtts (S (List.length rest)) b (mkMR rest true (mrLF r));
          Ok (h, s, content, atts)
        end
      end
  end.
Lemma random_nonnil rnd : randomOk rnd -> rnd <> [].
Proof. intros [R _]. destruct rnd; [discriminate|discriminate]. Qed.
Lemma boundary_ok rnd : randomOk rnd -> forallb isTok (hexenc rnd) = true /\ hexenc rnd <> [] /\ no_nl (hexenc rnd) /\ ~ In 13 (hexenc rnd).
Proof.
  intros R. pose proof (random_nonnil rnd R) as N. destruct R as [_ W].
  split; [apply hexenc_tok; exact W|]. split; [apply hexenc_nonnil; exact N|]. split; [|apply hexenc_not; [exact W|lia]].
  unfold no_nl. apply forallb_forall. intros c I. apply hexenc_chars in I; [|exact W]. unfold is_nl. lia.
Qed.
Lemma parse_header h s rnd body : headerOk h -> wfb s -> subjectOk s -> randomOk rnd ->
  parse L (mailHeader mx h s (hexenc rnd) ++ body) = parseBody h s (hexenc rnd) body.
Proof.
  intros H W S R. pose proof (random_nonnil rnd R) as RN. destruct (boundary_ok rnd R) as (BT & BN & _ & _).
  destruct (subject_clean mx s W S) as (SC & SN & SD). unfold parse. rewrite mailHeader_lines, <- app_assoc.
  rewrite readHdr_lines by (apply mailFields_good; auto). cbn [rbind]. fold (readFields h s (hexenc rnd)).
  destruct (get_fields h s (hexenc rnd)) as (G1 & G2 & G3 & G4 & G5 & G6 & G7 & G8). rewrite G1, G2, G3, G4, G5, G6, G7, G8. clear G1 G2 G3 G4 G5 G6 G7 G8.
  rewrite ccList_fields by exact H. rewrite media_boundary by (try exact RN; apply R).
  pose proof H as ((F & _) & (T & _) & (M & _) & _). destruct S as [NS _].
  destruct (beq (mFrom h) []) eqn:B1; [apply beq_spec in B1; contradiction|].
  destruct (beq (mTo h) []) eqn:B2; [apply beq_spec in B2; contradiction|]. cbn [rbind].
  destruct (beq s []) eqn:B3; [apply beq_spec in B3; contradiction|].
  destruct (beq (qEncode mx s) []) eqn:B4; [apply beq_spec in B4; contradiction|]. rewrite SD. cbn [rbind].
  destruct (beq (mMid h) []) eqn:B5; [apply beq_spec in B5; contradiction|].
  rewrite !beq_refl. cbn [negb]. change (pget (str "boundary") [(str "boundary", hexenc rnd)]) with (hexenc rnd).
  destruct h; reflexivity.
Qed.
Definition gotten (a : att) : att := mkAtt (aName a) (aData a) (attType L a) (aInline a).
Lemma writeAtts_tail b ord i l x : afterOk x = true ->
  exists y, writeAtts L b ord i l ++ CRLF ++ dashes b ++ x = CRLF ++ dashes b ++ y /\ afterOk y = true.
Proof.
  intros X. destruct l as [|a l]; [exists x; split; [reflexivity|exact X]|]. cbn [writeAtts]. rewrite createPart_lines. cbn iota.
  rewrite <- !app_assoc. eexists. split; [reflexivity|reflexivity].
Qed.
Lemma parseAtts_skip b ord x : no_nl b -> ~ In 13 b -> anyOrder ord -> afterOk x = true -> forall l i f, Forall attOk l ->
  parseAtts (List.length l + f) b (mkMR (writeAtts L b ord i l ++ CRLF ++ dashes b ++ x) true false)
  = (do r <- parseAtts f b (mkMR (CRLF ++ dashes b ++ x) true false); Ok (map gotten l ++ r)).
Proof.
  intros NB N13 O X. induction l as [|a l IH]; intros i f F.
  - cbn [List.length Nat.add writeAtts map]. rewrite app_nil_l. destruct (parseAtts f b (mkMR (CRLF ++ dashes b ++ x) true false)); reflexivity.
  - pose proof (Forall_inv F) as (AN & AC & AD & AT). apply Forall_inv_tail in F.
    destruct (writeAtts_tail b ord (S i) l x X) as (y & Y & YA).
    destruct (att_fields (ord i attKeys) a (O i attKeys) (name_nameOk _ AN AC) AT) as (G & C & CT & CD).
    cbn [List.length Nat.add parseAtts writeAtts]. rewrite createPart_lines. cbn iota. rewrite <- !app_assoc.
    rewrite (nextPart_more b _ (ordFields (ord i attKeys) (attHeader L a)) (b64enc (aData a) ++ writeAtts L b ord (S i) l ++ CRLF ++ dashes b ++ x) NB)
      by (apply read_canonical; assumption).
    cbn [mrS mrLF]. rewrite CT, CD. destruct (attType_clean a AT) as [_ TN].
    destruct (beq (attType L a) []) eqn:B; [apply beq_spec in B; contradiction|].
    rewrite dispositions_name by assumption. cbn [rbind]. rewrite Y.
    rewrite readPart_found by (try assumption; apply free_no45, b64enc_no45). rewrite b64dec_enc by exact AD.
    rewrite <- Y, (IH (S i) f F). destruct (parseAtts f b (mkMR (CRLF ++ dashes b ++ x) true false)); reflexivity.
Qed.
Lemma length_writeAtts b ord i l : (List.length l <= List.length (writeAtts L b ord i l))%nat.
Proof.
  revert i; induction l as [|a l IH]; intros i; [cbn; lia|]. cbn [writeAtts List.length]. rewrite !app_length. specialize (IH (S i)).
  rewrite createPart_lines. cbn iota. rewrite app_length. cbn [CRLF List.length]. lia.
Qed.
(* everything up to the end of some attachment, followed by a delimiter *)
Lemma parse_upto h s msg l rnd ord x : headerOk h -> wfb s -> subjectOk s -> randomOk rnd -> anyOrder ord -> wfb msg -> Forall attOk l -> afterOk x = true ->
  exists f, parse L (mailHeader mx h s (hexenc rnd) ++ createPart (hexenc rnd) true (ord 0%nat textKeys) textHeader ++ b64enc msg
           ++ writeAtts L (hexenc rnd) ord 1 l ++ CRLF ++ dashes (hexenc rnd) ++ x)
  = (do r <- parseAtts (S f) (hexenc rnd) (mkMR (CRLF ++ dashes (hexenc rnd) ++ x) true false); Ok (h, s, msg, map gotten l ++ r))
  /\ (List.length x <= f)%nat.
Proof.
  intros H W SO R AO WM F X. destruct (boundary_ok rnd R) as (BT & BN & NB & N13). set (b := hexenc rnd) in *.
  destruct (writeAtts_tail b ord 1 l x X) as (y & Y & YA).
  exists (List.length (writeAtts L b ord 1 l) - List.length l + List.length (CRLF ++ dashes b ++ x))%nat. split; [|rewrite !app_length; lia].
  unfold b at 1. rewrite parse_header by assumption. fold b. rewrite createPart_lines. cbn iota. rewrite app_nil_l, <- !app_assoc. unfold parseBody.
  destruct (text_fields (ord 0%nat textKeys) (AO _ _)) as (G & C & CT & CE).
  rewrite (nextPart_first b _ (ordFields (ord 0%nat textKeys) textHeader) (b64enc msg ++ writeAtts L b ord 1 l ++ CRLF ++ dashes b ++ x) NB)
    by (apply read_canonical; assumption).
  cbn [mrS mrLF]. rewrite CT, CE, !beq_refl. cbn [negb]. rewrite Y.
  rewrite readPart_found by (try assumption; apply free_no45, b64enc_no45). rewrite b64dec_enc by exact WM.
  rewrite <- Y. rewrite app_length.
  match goal with |- context [parseAtts ?f0 b (mkMR (writeAtts L b ord 1 l ++ _) true false)] =>
    replace f0 with (List.length l + S (List.length (writeAtts L b ord 1 l) - List.length l + List.length (CRLF ++ dashes b ++ x)))%nat
      by (pose proof (length_writeAtts b ord 1 l); lia) end.
  rewrite parseAtts_skip by assumption.
  destruct (parseAtts _ b (mkMR (CRLF ++ dashes b ++ x) true false)); reflexivity.
Qed.
Lemma gotten_received a : attOk a -> received L a (gotten a).
Proof.
  intros (N & C & _ & _). unfold received, gotten. cbn [aName aData aInline aType]. repeat split.
  - intros T. unfold attType. destruct (beq (aType a) []) eqn:B; [apply beq_spec in B; contradiction|reflexivity].
  - intros T. unfold attType. rewrite H. cbn [beq negb]. pose proof (name_nameOk _ N C) as (_ & NS & _).
    rewrite base_plain by assumption. rewrite H0 in *. rewrite ext_dot by assumption.
    destruct (beq (typeByExt L (46 :: e)) []) eqn:B; [apply beq_spec in B; contradiction|reflexivity].
  - intros T. unfold attType. rewrite H. cbn [beq negb]. pose proof (name_nameOk _ N C) as (_ & NS & _).
    rewrite base_plain by assumption. rewrite H0 in *. rewrite ext_dot by assumption. rewrite T. reflexivity.
Qed.
Lemma first_wfb msg s : firstLine msg s -> wfb msg -> wfb s.
Proof. intros (k & r & -> & _) W. apply wfb_app in W. apply W. Qed.
Lemma newMsg_eq h msg s l rnd ord : firstLine msg s ->
  newMsg L mx h msg l rnd ord = mailHeader mx h s (hexenc rnd) ++ createPart (hexenc rnd) true (ord 0%nat textKeys) textHeader ++ b64enc msg
           ++ writeAtts L (hexenc rnd) ord 1 l ++ CRLF ++ dashes (hexenc rnd) ++ str "--" ++ CRLF.
Proof. intros F. unfold newMsg, multipartMIME, closeParts, boundaryOf. rewrite (split_first msg s F), <- !app_assoc. reflexivity. Qed.
Lemma parseAtts_end f b : no_nl b -> parseAtts (S f) b (mkMR (CRLF ++ dashes b ++ str "--" ++ CRLF) true false) = Ok [].
Proof. intros NB. cbn [parseAtts]. change (CRLF ++ dashes b ++ str "--" ++ CRLF) with (closeParts b). rewrite nextPart_end by exact NB. reflexivity. Qed.
Lemma roundtrip h msg s l rnd ord : headerOk h -> wfb msg -> firstLine msg s -> subjectOk s -> randomOk rnd -> anyOrder ord -> Forall attOk l ->
  parse L (newMsg L mx h msg l rnd ord) = Ok (h, s, msg, map gotten l).
Proof.
  intros H W F S R O A. rewrite (newMsg_eq h msg s l rnd ord F).
  destruct (parse_upto h s msg l rnd ord (str "--" ++ CRLF) H (first_wfb _ _ F W) S R O W A eq_refl) as (f & -> & _).
  rewrite parseAtts_end by (apply boundary_ok; exact R). cbn [rbind]. rewrite app_nil_r. reflexivity.
Qed.
End Compose.

(* ------------------------------ C22 ------------------------------- *)
(* The full statement (every message text) is false: see C22_refuted, C22_no_subject. What is left out: texts whose
   first line is empty, or is printable and starts or ends with a blank or contains "=?". *)
Theorem C22_roundtrip_partial : forall L mx h msg s l rnd ord,
  headerOk h -> wfb msg -> firstLine msg s -> subjectOk s -> randomOk rnd -> anyOrder ord -> Forall attOk l ->
  exists atts, parse L (newMsg L mx h msg l rnd ord) = Ok (h, s, msg, atts).
Proof. intros. eexists. apply roundtrip; eassumption. Qed.
(* A message without a subject line can be composed but never parsed. *)
Theorem C22_no_subject : forall L mx h msg l rnd ord, headerOk h -> randomOk rnd -> firstLine msg [] ->
  parse L (newMsg L mx h msg l rnd ord) = Err "mime: 'Subject' not defined".
Proof.
  intros L mx h msg l rnd ord H R F. rewrite (newMsg_eq L mx h msg [] l rnd ord F). destruct (boundary_ok rnd R) as (BT & BN & _ & _).
  unfold parse. rewrite mailHeader_lines, <- app_assoc. rewrite readHdr_lines by (apply mailFields_good; auto). cbn [rbind].
  fold (readFields mx h [] (hexenc rnd)).
  destruct (get_fields mx h [] (hexenc rnd)) as (G1 & G2 & G3 & G4 & G5 & G6 & G7 & G8). rewrite G1, G2, G3, G4, G5, G6, G7, G8. clear G1 G2 G3 G4 G5 G6 G7 G8.
  rewrite ccList_fields by exact H. pose proof H as ((NF & _) & (NT & _) & _).
  destruct (beq (mFrom h) []) eqn:B1; [apply beq_spec in B1; contradiction|].
  destruct (beq (mTo h) []) eqn:B2; [apply beq_spec in B2; contradiction|]. reflexivity.
Qed.

(* a small message used by the examples *)
Definition exHdr : mhdr := mkMHdr (str "alice@mute.one") (str "bob@mute.one") (Some [str "carol@mute.one"; str "d.an@mute.one"]) (str "7@mute.one") [].
Definition exMsg : bytes := str "Verschl" ++ [195; 188] ++ str "sselung" ++ [13; 10] ++ str "  hello?" ++ [10].
Definition exSubj : bytes := str "Verschl" ++ [195; 188] ++ str "sselung".
Definition exAtt1 : att := mkAtt (str "quote1.txt") (str "some text") [] true.
Definition exAtt2 : att := mkAtt (str "quote2.txt") [0; 255] (str "application/pdf") false.
Definition exRnd : bytes := repeat 171 30.
Definition exOrd (i : nat) (l : list bytes) : list bytes := if Nat.odd i then rev l else l.
Lemma exOrd_any : anyOrder exOrd.
Proof. intros i l. unfold exOrd. destruct (Nat.odd i); [apply Permutation_sym, Permutation_rev|apply Permutation_refl]. Qed.
Lemma exRnd_ok : randomOk exRnd.
Proof. split; [reflexivity|]. unfold wfb, exRnd. apply Forall_forall. intros x I. apply repeat_spec in I as ->. reflexivity. Qed.
Lemma graph_field v : forallb (fun c => (33 <=? c) && (c <=? 126)) v = true -> fieldText v.
Proof.
  intros H. rewrite forallb_forall in H. repeat split; try (specialize (H c H0); lia); intros ->;
    match goal with E : v = _ |- _ => specialize (H _ ltac:(rewrite E; first [left; reflexivity|apply in_or_app; right; left; reflexivity])); lia end.
Qed.
Lemma atom_dot s : atom s = true -> dotAtom s. Proof. apply da_one. Qed.
Lemma exHdr_ok : headerOk exHdr.
Proof.
  repeat match goal with |- _ /\ _ => split | |- headerOk _ => unfold headerOk, exHdr; cbn [mFrom mTo mMid mReply mCc] | |- fieldText _ => apply graph_field; reflexivity | |- _ <> _ => discriminate end.
  constructor; [|constructor; [|constructor]].
  - exists (str "carol"), (str "mute.one"). split; [reflexivity|]. split; [apply da_one; reflexivity|]. apply (da_more (str "mute") (str "one")); [reflexivity|apply da_one; reflexivity].
  - exists (str "d.an"), (str "mute.one"). split; [reflexivity|]. split; [apply (da_more (str "d") (str "an")); [reflexivity|apply da_one; reflexivity]|].
    apply (da_more (str "mute") (str "one")); [reflexivity|apply da_one; reflexivity].
Qed.
Lemma exMsg_first : firstLine exMsg exSubj.
Proof.
  exists 1%nat, ([10] ++ str "  hello?" ++ [10]). split; [reflexivity|]. split; [right; eexists; reflexivity|]. split.
  - intros I. cbn in I. repeat (destruct I as [I|I]; [discriminate|]). exact I.
  - intros u E. apply (f_equal (fun l => last l 0)) in E. rewrite last_last in E. discriminate.
Qed.
Lemma names_ok n : forallb (fun c => isAlnum c || existsb (N.eqb c) (str "!#$%&'*+-.^_`{|}~")) n = true -> Forall nameChar n.
Proof.
  intros H. rewrite forallb_forall in H. apply Forall_forall. intros c I. specialize (H c I). apply orb_true_iff in H as [H|H]; [left; exact H|right].
  apply existsb_exists in H as (x & J & E). apply N.eqb_eq in E as ->. exact J.
Qed.
Lemma wfb_check s : forallb (fun c => c <? 256) s = true -> wfb s.
Proof. intros H. rewrite forallb_forall in H. apply Forall_forall. intros x I. specialize (H x I). lia. Qed.
Lemma exAtts_ok : Forall attOk [exAtt1; exAtt2].
Proof.
  constructor; [|constructor; [|constructor]]; (split; [discriminate|]; split; [apply names_ok; reflexivity|]; split; [|apply graph_field; reflexivity]).
  - apply wfb_check. reflexivity.
  - apply wfb_check. reflexivity.
Qed.
Lemma exMsg_wfb : wfb exMsg.
Proof. apply wfb_check. reflexivity. Qed.
Lemma exSubj_ok : subjectOk exSubj.
Proof. split; [discriminate|]. left. exists 195. split; [cbn; tauto|]. split; [right; reflexivity|discriminate]. Qed.
Example C22_ex : parse simpleLib (newMsg simpleLib 63 exHdr exMsg [exAtt1; exAtt2] exRnd exOrd)
  = Ok (exHdr, exSubj, exMsg, [mkAtt (str "quote1.txt") (str "some text") (str "text/plain; charset=utf-8") true; exAtt2]).
Proof. rewrite (roundtrip simpleLib 63 exHdr exMsg exSubj); [reflexivity|exact exHdr_ok|exact exMsg_wfb|exact exMsg_first|exact exSubj_ok|exact exRnd_ok|exact exOrd_any|exact exAtts_ok]. Qed.
Example C22_no_subject_ex : firstLine ([13; 10] ++ str "hello") [].
Proof. exists 1%nat, ([10] ++ str "hello"). split; [reflexivity|]. split; [right; eexists; reflexivity|]. split; [intros []|]. intros [|] E; discriminate. Qed.
(* Three ordinary texts: one that starts with an empty line, one with an indented first line, one whose first line looks like an encoded word. *)
Theorem C22_refuted : exists L h rnd ord, headerOk h /\ randomOk rnd /\ anyOrder ord
  /\ is_ok (parse L (newMsg L 63 h ([10] ++ str "hello") [] rnd ord)) = false
  /\ parse L (newMsg L 63 h (str " hi") [] rnd ord) = Ok (h, str "hi", str " hi", [])
  /\ parse L (newMsg L 63 h (str "=?utf-8?q?a?=") [] rnd ord) = Ok (h, str "a", str "=?utf-8?q?a?=", []).
Proof.
  exists simpleLib, exHdr, exRnd, (fun _ l => l). split; [exact exHdr_ok|]. split; [exact exRnd_ok|]. split; [intros i l; apply Permutation_refl|].
  vm_compute. repeat split; reflexivity.
Qed.

(* ------------------------------ C99 ------------------------------- *)
Theorem C99_arrive_partial : forall L mx h msg s l rnd ord,
  headerOk h -> wfb msg -> firstLine msg s -> subjectOk s -> randomOk rnd -> anyOrder ord -> Forall attOk l ->
  exists atts, parse L (newMsg L mx h msg l rnd ord) = Ok (h, s, msg, atts) /\ Forall2 (received L) l atts.
Proof.
  intros L mx h msg s l rnd ord H W F SO R AO A. exists (map (gotten L) l). split; [apply roundtrip; assumption|].
  clear - A. induction A as [|a l AO A IH]; [constructor|]. constructor; [apply (gotten_received L 0); exact AO|exact IH].
Qed.
(* file names that the recipient's parser refuses *)
Definition badName (n : bytes) : Prop :=
  fieldText n /\ ~ In 47 n
  /\ exists u k c v, n = u ++ repeat 32 k ++ c :: v /\ Forall nameChar u /\ c <> 59 /\ c <> 32 /\ ~ 9 <= c <= 13
     /\ (k = O -> ~ nameChar c) /\ (u = [] -> k = O /\ c <> 34).
Lemma isTok_name c : isTok c = true -> nameChar c.
Proof.
  intros T. pose proof (isTok_plain c T) as (_ & _ & _ & R).
  assert (forall n, (n <= 94)%nat -> isTok (32 + N.of_nat n) = true -> isAlnum (32 + N.of_nat n) = true \/ existsb (N.eqb (32 + N.of_nat n)) (str "!#$%&'*+-.^_`{|}~") = true) as E.
  { assert (forallb (fun n => implb (isTok (32 + N.of_nat n)) (isAlnum (32 + N.of_nat n) || existsb (N.eqb (32 + N.of_nat n)) (str "!#$%&'*+-.^_`{|}~"))) (seq 0 95) = true) as B by (vm_compute; reflexivity).
    intros n Hn TT. rewrite forallb_forall in B. specialize (B n ltac:(apply in_seq; lia)). rewrite TT in B. cbn [implb] in B. apply orb_true_iff in B. exact B. }
  specialize (E (N.to_nat (c - 32)) ltac:(lia)). replace (32 + N.of_nat (N.to_nat (c - 32))) with c in E by lia. destruct (E T) as [A|A]; [left; exact A|right].
  apply existsb_exists in A as (x & J & Q). apply N.eqb_eq in Q as ->. exact J.
Qed.
Lemma skipSp_in c s : isSp c = false -> In c s -> In c (skipSp s).
Proof.
  intros H. induction s as [|x s IH]; [intros []|]. cbn [skipSp]. intros I. destruct (isSp x) eqn:E; [|exact I].
  apply IH. destruct I as [->|I]; [congruence|exact I].
Qed.
Lemma trimSp_in c s : isSp c = false -> In c s -> In c (trimSp s).
Proof. intros H I. unfold trimSp. apply -> in_rev. apply skipSp_in; [exact H|]. apply -> in_rev. apply skipSp_in; assumption. Qed.
Lemma mediaParam_none c v : isSp c = false -> c <> 59 -> mediaParam (c :: v) = None.
Proof.
  intros SP C. unfold mediaParam. cbn [skipSp]. rewrite SP. destruct c as [|p]; [reflexivity|]. do 6 (destruct p as [p|p|]; try reflexivity). elim C; reflexivity.
Qed.
Lemma params_bad f acc k c v : isSp c = false -> c <> 59 -> exists e, params (S f) acc (repeat 32 k ++ c :: v) = Err e.
Proof.
  intros SP C. cbn [params]. assert (skipSp (repeat 32 k ++ c :: v) = c :: v) as ->.
  { induction k as [|k IH]; [cbn [repeat app skipSp]; rewrite SP; reflexivity|exact IH]. }
  rewrite mediaParam_none by assumption.
  destruct (beq (trimSp (c :: v)) [59]) eqn:B; [|eexists; reflexivity].
  apply beq_spec in B. assert (In c (trimSp (c :: v))) as I by (apply trimSp_in; [exact SP|left; reflexivity]). rewrite B in I. destruct I as [I|[]]. elim C. auto.
Qed.
Lemma media_bad n : badName n -> exists e, parseMediaType (str "attachment; filename=" ++ n) = Err e.
Proof.
  intros (_ & _ & u & k & c & v & -> & U & C59 & C32 & C9 & K & U0).
  assert (isSp c = false) as SP by (unfold isSp; lia).
  destruct u as [|x u].
  - destruct (U0 eq_refl) as [-> C34]. cbn [repeat app].
    assert (isTok c = false) as T by (destruct (isTok c) eqn:T; [elim (K eq_refl); apply isTok_name; exact T|reflexivity]).
    change (str "attachment; filename=" ++ c :: v) with (str "attachment" ++ str "; " ++ str "filename=" ++ c :: v).
    rewrite (parseMediaType_params _ _ (str "attachment"));
      [|intros I; cbn in I; repeat (destruct I as [I|I]; [discriminate|]); exact I|reflexivity|reflexivity].
    cbn [params]. change (skipSp (str "; " ++ str "filename=" ++ c :: v)) with (59 :: 32 :: str "filename=" ++ c :: v). cbn iota.
    assert (mediaParam (59 :: 32 :: str "filename=" ++ c :: v) = None) as ->.
    { unfold mediaParam. change (skipSp (59 :: 32 :: str "filename=" ++ c :: v)) with (59 :: 32 :: str "filename=" ++ c :: v). cbn iota.
      change (skipSp (32 :: str "filename=" ++ c :: v)) with (str "filename" ++ 61 :: c :: v). rewrite token_app by reflexivity.
      change (beq (str "filename") []) with false. cbn iota. change (skipSp (61 :: c :: v)) with (61 :: c :: v). cbn iota. cbn [skipSp]. rewrite SP.
      assert (consumeValue (c :: v) = ([], c :: v)) as ->; [|reflexivity].
      assert (consumeValue (c :: v) = token (c :: v)) as ->.
      { cbn [consumeValue]. destruct c as [|p]; [reflexivity|]. do 6 (destruct p as [p|p|]; try reflexivity). elim C34; reflexivity. }
      cbn [token]. rewrite T. reflexivity. }
    destruct (beq (trimSp (59 :: 32 :: str "filename=" ++ c :: v)) [59]) eqn:B; [|eexists; reflexivity].
    apply beq_spec in B. assert (In 102 (trimSp (59 :: 32 :: str "filename=" ++ c :: v))) as I by (apply trimSp_in; [reflexivity|right; right; left; reflexivity]).
    rewrite B in I. destruct I as [I|[]]. discriminate.
  - rewrite media_filename; [|discriminate|apply name_tok; exact U|].
    + change (List.length (str "; filename=" ++ (x :: u) ++ repeat 32 k ++ c :: v)) with (S (List.length (str " filename=" ++ (x :: u) ++ repeat 32 k ++ c :: v))).
      destruct (params_bad (List.length (str " filename=" ++ (x :: u) ++ repeat 32 k ++ c :: v)) [(str "filename", x :: u)] k c v SP C59) as [e ->]. eexists. reflexivity.
    + destruct k as [|k]; [|reflexivity]. cbn [repeat app]. destruct (isTok c) eqn:T; [elim (K eq_refl); apply isTok_name; exact T|reflexivity].
Qed.
Lemma writeAtts_app L b ord pre post : forall i, writeAtts L b ord i (pre ++ post) = writeAtts L b ord i pre ++ writeAtts L b ord (i + List.length pre) post.
Proof.
  induction pre as [|a pre IH]; intros i; cbn [app writeAtts List.length]; [rewrite Nat.add_0_r; reflexivity|].
  rewrite IH, <- !app_assoc. replace (S i + List.length pre)%nat with (i + S (List.length pre))%nat by lia. reflexivity.
Qed.
Lemma badName_ok n : badName n -> nameOk n.
Proof.
  intros ((A & B & C) & NS & u & k & c & v & E & _). assert (n <> []) as N by (rewrite E; destruct u; [destruct k; discriminate|discriminate]).
  split; [exact N|]. split; [exact NS|]. repeat split.
  - apply in_app_or in H as [H|H]; [cbn in H; repeat (destruct H as [<-|H]; [discriminate|]); destruct H|apply (A _ H)].
  - apply in_app_or in H as [H|H]; [cbn in H; repeat (destruct H as [<-|H]; [discriminate|]); destruct H|apply (A _ H)].
  - injection H as <- _. discriminate.
  - injection H as <- _. discriminate.
  - destruct (exists_last N) as (w & z & E2). rewrite E2 in H. rewrite !app_assoc in H. apply app_inj_tail in H as [_ <-]. apply (C z w E2).
  - destruct (exists_last N) as (w & z & E2). rewrite E2 in H. rewrite !app_assoc in H. apply app_inj_tail in H as [_ <-]. apply (C z w E2).
Qed.
(* One attachment with such a name makes the whole message unreadable. *)
Theorem C99_bad_name : forall L mx h msg s pre a post rnd ord,
  headerOk h -> wfb msg -> firstLine msg s -> subjectOk s -> randomOk rnd -> anyOrder ord -> Forall attOk pre ->
  badName (aName a) -> fieldText (aType a) ->
  exists e, parse L (newMsg L mx h msg (pre ++ a :: post) rnd ord) = Err e.
Proof.
  intros L mx h msg s pre a post rnd ord H W F SO R AO A BN FT. rewrite (newMsg_eq L mx h msg s _ rnd ord F).
  rewrite writeAtts_app, <- app_assoc. cbn [writeAtts]. rewrite (createPart_lines (hexenc rnd) false). cbn iota. rewrite <- !app_assoc.
  set (i := (1 + List.length pre)%nat). set (b := hexenc rnd) in *.
  set (body := b64enc (aData a) ++ writeAtts L b ord (S i) post ++ CRLF ++ dashes b ++ str "--" ++ CRLF).
  set (x := CRLF ++ lines (ordFields (ord i attKeys) (attHeader L a)) ++ CRLF ++ body).
  destruct (parse_upto L mx h s msg pre rnd ord x H (first_wfb _ _ F W) SO R AO W A eq_refl) as (f & E & _). fold b in E. rewrite E. clear E.
  destruct (boundary_ok rnd R) as (_ & _ & NB & _). fold b in NB.
  destruct (att_fields L (ord i attKeys) a (AO i attKeys) (badName_ok _ BN) FT) as (G & C & CT & CD).
  cbn [parseAtts]. unfold x. rewrite (nextPart_more b _ (ordFields (ord i attKeys) (attHeader L a)) body NB) by (apply read_canonical; assumption).
  rewrite CT, CD. destruct (attType_clean L a FT) as [_ TN]. destruct (beq (attType L a) []) eqn:B; [apply beq_spec in B; contradiction|].
  destruct (media_bad _ BN) as [e ME]. cbn [dispositions]. rewrite ME. eexists. reflexivity.
Qed.
Example C99_bad_name_ex : badName (str "my file.txt") /\ badName ([195; 188] ++ str "ber.txt").
Proof.
  split.
  - split; [|split; [intros I; cbn in I; repeat (destruct I as [I|I]; [discriminate|]); exact I|]].
    + repeat split; intros ->; try (cbn in H; repeat (destruct H as [H|H]; [discriminate|]); exact H); try discriminate; apply (f_equal (fun l => last l 0)) in H; rewrite last_last in H; discriminate.
    + exists (str "my"), 1%nat, 102, (str "ile.txt"). split; [reflexivity|]. split; [apply names_ok; reflexivity|]. repeat split; try discriminate; intros [? ?]; lia.
  - split; [|split; [intros I; cbn in I; repeat (destruct I as [I|I]; [discriminate|]); exact I|]].
    + repeat split; intros ->; try (cbn in H; repeat (destruct H as [H|H]; [discriminate|]); exact H); try discriminate; apply (f_equal (fun l => last l 0)) in H; rewrite last_last in H; discriminate.
    + exists [], O, 195, ([188] ++ str "ber.txt"). split; [reflexivity|]. split; [constructor|]. split; [discriminate|]. split; [discriminate|].
      split; [intros [? ?]; lia|]. split; [|intros _; split; [reflexivity|discriminate]]. intros _ [N|N]; [discriminate|]. cbn in N. repeat (destruct N as [N|N]; [discriminate|]). exact N.
Qed.
Theorem C99_refuted : exists L h msg a rnd ord, headerOk h /\ wfb msg /\ randomOk rnd /\ anyOrder ord
  /\ aName a = str "my file.txt" /\ is_ok (parse L (newMsg L 63 h msg [] rnd ord)) = true
  /\ is_ok (parse L (newMsg L 63 h msg [a] rnd ord)) = false.
Proof.
  exists simpleLib, exHdr, exMsg, (mkAtt (str "my file.txt") (str "x") [] false), exRnd, (fun _ l => l).
  split; [exact exHdr_ok|]. split; [exact exMsg_wfb|]. split; [exact exRnd_ok|]. split; [intros i l; apply Permutation_refl|]. split; [reflexivity|].
  split; vm_compute; reflexivity.
Qed.

(* --------------------------- C100, C101 --------------------------- *)
(* The end of the message is cut off inside the last boundary line: the recipient crashes. *)
Theorem C100_crash : forall L mx h msg s l rnd ord,
  headerOk h -> wfb msg -> firstLine msg s -> subjectOk s -> randomOk rnd -> anyOrder ord -> Forall attOk l ->
  exists m t, newMsg L mx h msg l rnd ord = m ++ t /\ lenN t = 4 /\ parse L m = Panic.
Proof.
  intros L mx h msg s l rnd ord H W F SO R AO A. destruct (boundary_ok rnd R) as (_ & _ & NB & _).
  destruct (parse_upto L mx h s msg l rnd ord [] H (first_wfb _ _ F W) SO R AO W A eq_refl) as (f & E & _).
  exists (mailHeader mx h s (hexenc rnd) ++ createPart (hexenc rnd) true (ord 0%nat textKeys) textHeader ++ b64enc msg
           ++ writeAtts L (hexenc rnd) ord 1 l ++ CRLF ++ dashes (hexenc rnd) ++ []), (str "--" ++ CRLF). split; [|split; [reflexivity|]].
  - rewrite (newMsg_eq L mx h msg s l rnd ord F). rewrite <- !app_assoc. reflexivity.
  - rewrite E. rewrite app_nil_r. set (b := hexenc rnd) in *.
    assert (nextPart b (mkMR (CRLF ++ dashes b) true false) = NErr) as NP.
    { unfold nextPart. cbn [mrS]. rewrite nextLoop_empty. change (List.length (CRLF ++ dashes b)) with (S (S (List.length (dashes b)))).
      cbn [nextLoop mrS mrLF]. 
      assert (forall l0 : bytes, ~ In 10 l0 -> cut_nl l0 = (l0, None)) as C.
      { intros l0. induction l0 as [|y l0 IH]; [reflexivity|]. intros NI. cbn [cut_nl]. destruct (N.eqb_spec y 10) as [->|_]; [elim NI; left; reflexivity|].
        rewrite IH by (intros I; apply NI; right; exact I). reflexivity. }
      rewrite C by (intros [I|[I|I]]; [discriminate|discriminate|exact (proj1 (no_nl_not_in b NB) I)]).
      unfold isFinal. rewrite starts_prefix_none; [reflexivity|]. intros v E2. apply (f_equal lenN) in E2. rewrite !lenN_app in E2. change (lenN [45; 45]) with 2 in E2. lia. }
    cbn [parseAtts]. rewrite NP. reflexivity.
Qed.
Theorem C100_refuted : exists L s, wfb s /\ parse L s = Panic.
Proof.
  destruct (C100_crash simpleLib 63 exHdr exMsg exSubj [] exRnd exOrd exHdr_ok exMsg_wfb exMsg_first exSubj_ok exRnd_ok exOrd_any (Forall_nil _)) as (m & t & E & _ & P).
  exists simpleLib, m. split; [|exact P]. assert (wfb (m ++ t)) as WW; [|apply wfb_app in WW; apply WW].
  rewrite <- E. apply wfb_check. vm_compute. reflexivity.
Qed.
(* Parse crashes in no other way than by a later part that cannot be read; DecodeChunk never crashes. *)
Lemma readMIME_nopanic f s : readMIME f s <> Panic.
Proof.
  revert s; induction f as [|f IH]; intros s; [discriminate|]. cbn [readMIME]. destruct (readLine s) as [[l r]|]; [|discriminate].
  destruct l as [|c l]; [discriminate|]. destruct (contLines (List.length r) (trim (c :: l)) r) as [kv r']. destruct kv as [|k kv]; [discriminate|].
  destruct (index_byte 58 (k :: kv)); [|discriminate]. specialize (IH r'). destruct (readMIME f r') as [[h b]| |]; [|discriminate|contradiction].
  cbn [rbind]. discriminate.
Qed.
Lemma ccList_nopanic L v : ccList L v <> Panic.
Proof.
  unfold ccList. destruct (beq v []); [discriminate|]. pose proof (parseAddrs_nopanic L v). destruct (parseAddrs L v) as [l| |]; [destruct l|..]; try discriminate; contradiction.
Qed.
Lemma params_nopanic f : forall acc v, params f acc v <> Panic.
Proof.
  induction f as [|f IH]; intros acc v; [discriminate|]. cbn [params]. destruct (skipSp v) as [|c s]; [discriminate|].
  destruct (mediaParam (c :: s)) as [[[k x] r]|]; [|destruct (beq (trimSp (c :: s)) [59]); discriminate].
  destruct (existsb (fun p => beq (fst p) k) acc); [discriminate|apply IH].
Qed.
Lemma media_nopanic v : parseMediaType v <> Panic.
Proof.
  unfold parseMediaType. destruct (match cut1 59 v with Some (a, r) => (a, 59 :: r) | None => (v, []) end) as [a r]. cbv zeta.
  destruct (negb (mediaTypeOk (trimSp (map lowerB a)))); [discriminate|]. pose proof (params_nopanic (S (List.length r)) [] r).
  destruct (params (S (List.length r)) [] r); [discriminate|discriminate|contradiction].
Qed.
Lemma convert_nopanic cs c : convert cs c <> Panic.
Proof. unfold convert. cbv zeta. repeat match goal with |- context [if ?b then _ else _] => destruct b end; discriminate. Qed.
Lemma decLoop_nopanic f : forall b s, decLoop f b s <> Panic.
Proof.
  induction f as [|f IH]; intros b s; [discriminate|]. cbn [decLoop]. destruct (cut2 61 63 s) as [[pre s1]|]; [|discriminate].
  destruct (cut1 63 s1) as [[cs s2]|]; [|discriminate]. destruct s2 as [|e [|q s3]]; try discriminate.
  destruct ((lenN (e :: q :: s3) <? 4) || negb (q =? 63)); [discriminate|]. destruct (cut2 63 61 s3) as [[text rest]|]; [|discriminate].
  destruct (decodeWord e text) as [c|].
  - pose proof (convert_nopanic cs c). destruct (convert cs c) as [c'| |]; [|discriminate|contradiction]. cbn [rbind].
    specialize (IH true rest). destruct (decLoop f true rest); [discriminate|discriminate|contradiction].
  - specialize (IH false s1). destruct (decLoop f false s1); [discriminate|discriminate|contradiction].
Qed.
Lemma dispositions_nopanic l : forall n i, dispositions n i l <> Panic.
Proof.
  induction l as [|d l IH]; intros n i; [discriminate|]. cbn [dispositions]. pose proof (media_nopanic d).
  destruct (parseMediaType d) as [[mt ps]| |]; [|discriminate|contradiction]. cbn [rbind].
  destruct (beq mt (str "attachment")); [apply IH|]. destruct (beq mt (str "inline")); [apply IH|discriminate].
Qed.
Theorem C100_chunk : forall L s, decodeChunk L s <> Panic.
Proof.
  intros L s. unfold decodeChunk. pose proof (readMIME_nopanic (S (List.length s)) s) as P1. fold (readHdr s) in P1.
  destruct (readHdr s) as [[h body]| |]; [|discriminate|contradiction]. cbn [rbind].
  pose proof (ccList_nopanic L (hget (str "Cc") h)). destruct (ccList L (hget (str "Cc") h)); [|discriminate|contradiction]. cbn [rbind]. cbv zeta.
  pose proof (media_nopanic (hget (str "Content-Type") h)). destruct (parseMediaType (hget (str "Content-Type") h)) as [[mt ps]| |]; [|discriminate|contradiction]. cbn [rbind].
  destruct (negb (beq mt (str "multipart/mixed"))); [discriminate|]. destruct (nextPart _ _) as [ph r| |]; [|discriminate|discriminate].
  pose proof (media_nopanic (hget (str "Content-Type") ph)). destruct (parseMediaType (hget (str "Content-Type") ph)) as [[mt2 ps2]| |]; [|discriminate|contradiction]. cbn [rbind].
  destruct (parse_dec _); [|discriminate]. destruct (parse_dec _); [|discriminate]. destruct (negb _); [discriminate|].
  destruct (readPart _ _ _) as [[? ?]|]; discriminate.
Qed.
(* the streams seen by the reader are ends of the input *)
Definition suffix (w s : bytes) : Prop := exists u, s = u ++ w.
Lemma suffix_refl s : suffix s s. Proof. exists []. reflexivity. Qed.
Lemma suffix_trans a b c : suffix a b -> suffix b c -> suffix a c.
Proof. intros (u & ->) (v & ->). exists (v ++ u). rewrite app_assoc. reflexivity. Qed.
Lemma suffix_cons x s : suffix s (x :: s). Proof. exists [x]. reflexivity. Qed.
Lemma cut_nl_suffix s : forall l r, cut_nl s = (l, Some r) -> suffix r s.
Proof.
  induction s as [|c s IH]; intros l r E; [discriminate|]. cbn [cut_nl] in E. destruct (c =? 10); [injection E as _ <-; apply suffix_cons|].
  destruct (cut_nl s) as [a [t|]]; [|discriminate]. injection E as _ <-. eapply suffix_trans; [eapply IH; reflexivity|apply suffix_cons].
Qed.
Lemma readLine_suffix s l r : readLine s = Some (l, r) -> suffix r s.
Proof.
  unfold readLine. destruct s as [|c s]; [discriminate|]. destruct (cut_nl (c :: s)) as [a [t|]] eqn:E; intros Q; injection Q as _ <-.
  - eapply cut_nl_suffix; exact E.
  - exists (c :: s). rewrite app_nil_r. reflexivity.
Qed.
Lemma trim_left_suffix s : suffix (trim_left s) s.
Proof. induction s as [|c s IH]; [apply suffix_refl|]. cbn [trim_left]. destruct (is_wsp c); [eapply suffix_trans; [exact IH|apply suffix_cons]|apply suffix_refl]. Qed.
Lemma contLines_suffix f : forall acc s kv r, contLines f acc s = (kv, r) -> suffix r s.
Proof.
  induction f as [|f IH]; intros acc s kv r E; cbn [contLines] in E; [injection E as _ <-; apply suffix_refl|]. cbv zeta in E.
  destruct (lenN (trim_left s) =? lenN s); [injection E as _ <-; apply suffix_refl|].
  destruct (readLine (trim_left s)) as [[l t]|] eqn:R; [|injection E as _ <-; apply trim_left_suffix].
  eapply suffix_trans; [eapply IH; exact E|]. eapply suffix_trans; [eapply readLine_suffix; exact R|apply trim_left_suffix].
Qed.
Lemma readMIME_suffix f : forall s h r, readMIME f s = Ok (h, r) -> suffix r s.
Proof.
  induction f as [|f IH]; intros s h r E; [discriminate|]. cbn [readMIME] in E. destruct (readLine s) as [[l t]|] eqn:RL; [|discriminate].
  apply readLine_suffix in RL. destruct l as [|c l]; [injection E as _ <-; exact RL|].
  destruct (contLines (List.length t) (trim (c :: l)) t) as [kv t'] eqn:CL. apply contLines_suffix in CL.
  destruct kv as [|k kv]; [injection E as _ <-; eapply suffix_trans; eassumption|].
  destruct (index_byte 58 (k :: kv)); [|discriminate]. destruct (readMIME f t') as [[h' b]| |] eqn:R; try discriminate. cbn [rbind] in E.
  assert (b = r) as <- by (match type of E with Ok (if ?x then _ else _) = _ => destruct x end; injection E; auto).
  eapply suffix_trans; [eapply IH; exact R|]. eapply suffix_trans; eassumption.
Qed.
Lemma nextLoop_suffix b f : forall e r h r', nextLoop f b e r = NPart h r' -> suffix (mrS r') (mrS r) /\ mrParts r' = true.
Proof.
  induction f as [|f IH]; intros e r h r' E; [discriminate|]. cbn [nextLoop] in E. destruct (cut_nl (mrS r)) as [l [rest|]] eqn:C.
  2:{ destruct (isFinal (mrLF r) b l); discriminate. }
  apply cut_nl_suffix in C. cbv zeta in E. destruct (isDelim (mrParts r) (mrLF r) b (l ++ [10])) as [d lf]. destruct d.
  - destruct (readHdr rest) as [[h' rest']| er |] eqn:R; [|destruct (String.eqb er "EOF"); discriminate|discriminate].
    injection E as _ <-. split; [|reflexivity]. cbn [mrS]. eapply suffix_trans; [eapply readMIME_suffix; exact R|exact C].
  - destruct (isFinal lf b (l ++ [10])); [discriminate|]. destruct e; [discriminate|]. destruct (negb (mrParts r)).
    + apply IH in E as [E1 E2]. split; [|exact E2]. eapply suffix_trans; [exact E1|exact C].
    + destruct (beq (l ++ [10]) (nl lf)); [|discriminate]. apply IH in E as [E1 E2]. split; [|exact E2]. eapply suffix_trans; [exact E1|exact C].
Qed.
Lemma scan_suffix p s : forall c r, scan p s = Some (c, r) -> suffix r s.
Proof.
  induction s as [|x s IH]; intros c r E; rewrite scan_eq in E.
  - destruct (boundaryAt p []); [injection E as _ <-; apply suffix_refl|discriminate].
  - destruct (boundaryAt p (x :: s)); [injection E as _ <-; apply suffix_refl|].
    destruct (scan p s) as [[a t]|]; [|discriminate]. injection E as _ <-. eapply suffix_trans; [eapply IH; reflexivity|apply suffix_cons].
Qed.
Lemma readPart_suffix lf b s c r : readPart lf b s = Some (c, r) -> suffix r s.
Proof. unfold readPart. destruct (boundaryAt (dashes b) s); [intros E; injection E as _ <-; apply suffix_refl|apply scan_suffix]. Qed.
Lemma parseAtts_panic b f : forall r, mrParts r = true -> parseAtts f b r = Panic -> exists w lf, suffix w (mrS r) /\ nextPart b (mkMR w true lf) = NErr.
Proof.
  induction f as [|f IH]; intros r MP E; [discriminate|]. cbn [parseAtts] in E. destruct (nextPart b r) as [h r'| |] eqn:NP; [|discriminate|].
  2:{ destruct r as [w p lf]. cbn [mrParts] in MP. subst p. exists w, lf. split; [apply suffix_refl|exact NP]. }
  unfold nextPart in NP. apply nextLoop_suffix in NP as [NS _]. cbv zeta in E.
  destruct (beq (hget (str "Content-Type") h) []); [discriminate|]. pose proof (dispositions_nopanic (hvalues (str "Content-Disposition") h) [] false) as D.
  destruct (dispositions [] false (hvalues (str "Content-Disposition") h)) as [[n i]| |]; [|discriminate|contradiction]. cbn [rbind] in E.
  destruct (readPart (mrLF r') b (mrS r')) as [[enc rest]|] eqn:RP; [|discriminate]. destruct (b64dec enc); [|discriminate].
  destruct (parseAtts f b (mkMR rest true (mrLF r'))) eqn:PA; try discriminate. apply IH in PA as (w & lf & S1 & S2); [|reflexivity].
  exists w, lf. split; [|exact S2]. cbn [mrS] in S1. eapply suffix_trans; [exact S1|]. eapply suffix_trans; [eapply readPart_suffix; exact RP|exact NS].
Qed.
(* Full statement: parse L s <> Panic; false, see C100_refuted. What is left: the only crash is the one of a later part that cannot be read. *)
Theorem C100_only_partial : forall L s, parse L s = Panic ->
  exists b w lf, suffix w s /\ nextPart b (mkMR w true lf) = NErr.
Proof.
  intros L s E. unfold parse in E. pose proof (readMIME_nopanic (S (List.length s)) s) as P1. fold (readHdr s) in P1.
  destruct (readHdr s) as [[h body]| |] eqn:RH; [|discriminate|contradiction]. cbn [rbind] in E. cbv zeta in E. unfold readHdr in RH. apply readMIME_suffix in RH.
  destruct (beq (hget (str "From") h) []); [discriminate|]. destruct (beq (hget (str "To") h) []); [discriminate|].
  pose proof (ccList_nopanic L (hget (str "Cc") h)). destruct (ccList L (hget (str "Cc") h)); [|discriminate|contradiction]. cbn [rbind] in E.
  destruct (beq (hget (str "Subject") h) []); [discriminate|].
  pose proof (decLoop_nopanic (List.length (hget (str "Subject") h)) false (hget (str "Subject") h)) as P2. fold (decodeHeader (hget (str "Subject") h)) in P2.
  destruct (decodeHeader (hget (str "Subject") h)); [|discriminate|contradiction]. cbn [rbind] in E.
  destruct (beq (hget (str "Message-Id") h) []); [discriminate|]. destruct (negb (beq (hget (str "Mime-Version") h) (str "1.0"))); [discriminate|].
  pose proof (media_nopanic (hget (str "Content-Type") h)). destruct (parseMediaType (hget (str "Content-Type") h)) as [[mt ps]| |]; [|discriminate|contradiction]. cbn [rbind] in E.
  destruct (negb (beq mt (str "multipart/mixed"))); [discriminate|]. destruct (nextPart (pget (str "boundary") ps) (mkMR body false false)) as [ph r| |] eqn:NP; [|discriminate|discriminate].
  unfold nextPart in NP. apply nextLoop_suffix in NP as [NS MP]. cbn [mrS] in NS.
  destruct (negb _); [discriminate|]. destruct (negb _); [discriminate|].
  destruct (readPart (mrLF r) (pget (str "boundary") ps) (mrS r)) as [[enc rest]|] eqn:RP; [|discriminate]. destruct (b64dec enc); [|discriminate].
  destruct (parseAtts (S (List.length rest)) (pget (str "boundary") ps) (mkMR rest true (mrLF r))) eqn:PA; try discriminate.
  apply parseAtts_panic in PA as (w & lf & S1 & S2); [|reflexivity]. exists (pget (str "boundary") ps), w, lf. split; [|exact S2]. cbn [mrS] in S1.
  eapply suffix_trans; [exact S1|]. eapply suffix_trans; [eapply readPart_suffix; exact RP|]. eapply suffix_trans; eassumption.
Qed.

(* ------------------------------ C101 ------------------------------ *)
(* Cutting a message with attachments right after a boundary line drops the attachments after it, and nobody notices. *)
Lemma nextPart_headerless b : no_nl b -> nextPart b (mkMR (CRLF ++ dashes b ++ CRLF) true false) = NEof.
Proof.
  intros NB. unfold nextPart. cbn [mrS]. rewrite nextLoop_empty. change (List.length (CRLF ++ dashes b ++ CRLF)) with (S (S (List.length (dashes b ++ CRLF)))).
  cbn [nextLoop mrS mrParts mrLF]. pose proof (cut_nl_crlf (dashes b) []) as C. rewrite app_nil_r in C.
  rewrite C by (apply no_nl_app; split; [reflexivity|exact NB]). rewrite <- app_assoc. change ([13] ++ [10]) with CRLF. rewrite isDelim_line. reflexivity.
Qed.
Theorem C101_dropped : forall L mx h msg s pre a post rnd ord,
  headerOk h -> wfb msg -> firstLine msg s -> subjectOk s -> randomOk rnd -> anyOrder ord -> Forall attOk pre ->
  exists m t atts, newMsg L mx h msg (pre ++ a :: post) rnd ord = m ++ t /\ t <> []
    /\ parse L m = Ok (h, s, msg, atts) /\ Forall2 (received L) pre atts.
Proof.
  intros L mx h msg s pre a post rnd ord H W F SO R AO A. destruct (boundary_ok rnd R) as (_ & _ & NB & _).
  destruct (parse_upto L mx h s msg pre rnd ord CRLF H (first_wfb _ _ F W) SO R AO W A eq_refl) as (f & E & _).
  rewrite (newMsg_eq L mx h msg s _ rnd ord F). rewrite writeAtts_app, <- app_assoc. cbn [writeAtts]. rewrite (createPart_lines (hexenc rnd) false). cbn iota. rewrite <- !app_assoc.
  set (i := (1 + List.length pre)%nat). set (b := hexenc rnd) in *.
  set (body := lines (ordFields (ord i attKeys) (attHeader L a)) ++ CRLF ++ b64enc (aData a) ++ writeAtts L b ord (S i) post ++ CRLF ++ dashes b ++ str "--" ++ CRLF).
  exists (mailHeader mx h s b ++ createPart b true (ord 0%nat textKeys) textHeader ++ b64enc msg ++ writeAtts L b ord 1 pre ++ CRLF ++ dashes b ++ CRLF), body, (map (gotten L) pre).
  split; [rewrite <- !app_assoc; reflexivity|]. split; [unfold body; intros Q; apply app_eq_nil in Q as [_ Q]; discriminate|]. split.
  - rewrite E. cbn [parseAtts]. rewrite nextPart_headerless by exact NB. cbn [rbind]. rewrite app_nil_r. reflexivity.
  - clear - A. induction A as [|x l AO A IH]; [constructor|]. constructor; [apply (gotten_received L 0); exact AO|exact IH].
Qed.
Theorem C101_refuted : exists L h msg a rnd ord m t, headerOk h /\ randomOk rnd /\ anyOrder ord
  /\ newMsg L 63 h msg [a] rnd ord = m ++ t /\ t <> [] /\ aData a <> []
  /\ parse L m = Ok (h, exSubj, msg, []).
Proof.
  destruct (C101_dropped simpleLib 63 exHdr exMsg exSubj [] exAtt1 [] exRnd exOrd exHdr_ok exMsg_wfb exMsg_first exSubj_ok exRnd_ok exOrd_any (Forall_nil _)) as (m & t & atts & E & T & P & F).
  inversion F; subst. exists simpleLib, exHdr, exMsg, exAtt1, exRnd, exOrd, m, t.
  split; [exact exHdr_ok|]. split; [exact exRnd_ok|]. split; [exact exOrd_any|]. split; [exact E|]. split; [exact T|]. split; [discriminate|exact P].
Qed.
(* Wherever a message is cut: if it is accepted at all, then with the full header, subject and text, and the first attachments, complete. *)
Lemma cut_nl_none (l : bytes) : ~ In 10 l -> cut_nl l = (l, None).
Proof.
  induction l as [|y l IH]; [reflexivity|]. intros NI. cbn [cut_nl]. destruct (N.eqb_spec y 10) as [->|_]; [elim NI; left; reflexivity|].
  rewrite IH by (intros I; apply NI; right; exact I). reflexivity.
Qed.
Lemma nextLoop_cutline f b e parts q : ~ In 10 q -> (forall h r, nextLoop f b e (mkMR q parts false) <> NPart h r).
Proof.
  intros NI h r. destruct f as [|f]; [discriminate|]. cbn [nextLoop mrS mrLF]. rewrite cut_nl_none by exact NI. destruct (isFinal false b q); discriminate.
Qed.
(* the delimiter line or the header after it is cut *)
Lemma nextLoop_cut f b e parts fs q t : no_nl b -> Forall goodField fs -> dashes b ++ CRLF ++ lines fs ++ CRLF = q ++ t -> t <> [] ->
  forall h r, nextLoop f b e (mkMR q parts false) <> NPart h r.
Proof.
  intros NB G E T h r. rewrite app_assoc in E. symmetry in E. apply strict_prefix_cases in E as [(u & U & UN)|(q' & -> & Q)].
  - apply nextLoop_cutline. destruct (exists_last UN) as (u' & z & ->). rewrite app_assoc in U.
    change CRLF with ([13] ++ [10]) in U. rewrite app_assoc in U. apply app_inj_tail in U as [U _]. intros I.
    assert (In 10 (dashes b ++ [13])) as J by (rewrite U; apply in_or_app; left; exact I). apply in_app_or in J as [[J|[J|J]]|[J|[]]]; try discriminate.
    exact (proj1 (no_nl_not_in b NB) J).
  - destruct f as [|f]; [discriminate|]. cbn [nextLoop mrS mrParts mrLF]. rewrite <- app_assoc.
    rewrite cut_nl_crlf by (apply no_nl_app; split; [reflexivity|exact NB]). rewrite <- app_assoc. change ([13] ++ [10]) with CRLF. rewrite isDelim_line.
    destruct (readHdr_cut fs q' t G (eq_sym Q) T) as [er ->]. destruct (String.eqb er "EOF"); discriminate.
Qed.
Lemma split_two (u x a y : bytes) : u ++ x = a ++ y -> (exists w, a = u ++ w /\ w <> [] /\ x = w ++ y) \/ (exists q, u = a ++ q /\ q ++ x = y).
Proof.
  revert a; induction u as [|c u IH]; intros a E.
  - destruct a as [|d a]; [right; exists []; split; [reflexivity|exact E]|left; exists (d :: a); split; [reflexivity|split; [discriminate|exact E]]].
  - destruct a as [|d a]; cbn [app] in E; [right; exists (c :: u); split; [reflexivity|exact E]|].
    injection E as -> E. destruct (IH a E) as [(w & -> & W & X)|(q & -> & Q)]; [left; exists w|right; exists q]; auto.
Qed.
Lemma free_cut b c d t : ~ In 45 c -> c ++ CRLF ++ dashes b = d ++ t -> t <> [] -> free b d.
Proof.
  intros NC E T u v D. rewrite D in E. rewrite <- !app_assoc in E. rewrite (app_assoc c) in E. symmetry in E.
  apply split_two in E as [(w & U & UN & X)|(q & -> & Q)].
  - destruct w as [|x w]; [elim UN; reflexivity|]. injection X as <- _.
    assert (In 45 (c ++ CRLF)) as I by (rewrite U; apply in_or_app; right; left; reflexivity).
    apply in_app_or in I as [I|[I|[I|[]]]]; [exact (NC I)|discriminate|discriminate].
  - apply (f_equal lenN) in Q. rewrite !lenN_app in Q. assert (lenN t = 0) as Z by lia. destruct t; [elim T; reflexivity|rewrite lenN_cons in Z; lia].
Qed.
Lemma afterOk_prefix x t y : x ++ t = y -> afterOk y = true -> afterOk x = true.
Proof. intros <-. destruct x; [reflexivity|]. auto. Qed.
Lemma parseAtts_cut L b ord : no_nl b -> ~ In 13 b -> anyOrder ord -> forall l i f q t, Forall attOk l ->
  CRLF ++ dashes b ++ q ++ t = writeAtts L b ord i l ++ closeParts b ->
  match parseAtts f b (mkMR (CRLF ++ dashes b ++ q) true false) with
  | Ok r => exists pre post, l = pre ++ post /\ r = map (gotten L) pre
  | _ => True
  end.
Proof.
  intros NB N13 AO. induction l as [|a l IH]; intros i f q t F E; (destruct f as [|f]; [exact I|]); cbn [parseAtts].
  - cbn [writeAtts] in E. rewrite app_nil_l in E. unfold closeParts in E. apply app_inv_head in E. apply app_inv_head in E.
    destruct (nextPart b (mkMR (CRLF ++ dashes b ++ q) true false)) as [h r| |] eqn:NP; [exfalso|exists [], []; split; reflexivity|exact I].
    unfold nextPart in NP. cbn [mrS] in NP. rewrite nextLoop_empty in NP.
    destruct t as [|z t].
    + rewrite app_nil_r in E. subst q. pose proof (nextPart_end b NB) as NE. unfold nextPart, closeParts in NE. cbn [mrS] in NE. rewrite nextLoop_empty in NE. congruence.
    + apply (nextLoop_cutline (List.length (CRLF ++ dashes b ++ q)) b true true (dashes b ++ q)) in NP; [exact NP|].
      intros I. apply in_app_or in I as [[I|[I|I]]|I]; [discriminate|discriminate|exact (proj1 (no_nl_not_in b NB) I)|].
      destruct (exists_last (l := z :: t)) as (t' & y & ET); [discriminate|]. rewrite ET, app_assoc in E.
      change ([45; 45] ++ CRLF) with ([45; 45; 13] ++ [10]) in E. apply app_inj_tail in E as [E _].
      assert (In 10 [45; 45; 13]) as J by (rewrite <- E; apply in_or_app; left; exact I).
      destruct J as [J|[J|[J|[]]]]; discriminate.
  - pose proof (Forall_inv F) as (AN & AC & AD & AT). apply Forall_inv_tail in F.
    cbn [writeAtts] in E. rewrite createPart_lines in E. cbn iota in E. rewrite <- !app_assoc in E. apply app_inv_head in E. apply app_inv_head in E.
    destruct (att_fields L (ord i attKeys) a (AO i attKeys) (name_nameOk 0 _ AN AC) AT) as (G & C & CT & CD).
    set (fs := ordFields (ord i attKeys) (attHeader L a)) in *.
    rewrite (app_assoc CRLF (lines fs)), (app_assoc (CRLF ++ lines fs)) in E.
    apply strict_prefix_cases in E as [(u & U & UN)|(d & -> & D)].
    + destruct (nextPart b (mkMR (CRLF ++ dashes b ++ q) true false)) as [h r| |] eqn:NP; [exfalso|exists [], (a :: l); split; reflexivity|exact I].
      unfold nextPart in NP. cbn [mrS] in NP. rewrite nextLoop_empty in NP.
      apply (nextLoop_cut (List.length (CRLF ++ dashes b ++ q)) b true true fs (dashes b ++ q) u NB G) in NP; [exact NP| |exact UN].
      rewrite <- app_assoc. f_equal. rewrite <- app_assoc in U. exact U.
    + rewrite <- !app_assoc. rewrite (nextPart_more b _ fs d NB) by (apply read_canonical; assumption).
      cbn [mrS mrLF]. rewrite CT, CD. destruct (attType_clean L a AT) as [_ TN].
      destruct (beq (attType L a) []) eqn:B; [apply beq_spec in B; contradiction|]. rewrite dispositions_name by assumption. cbn [rbind].
      destruct (writeAtts_tail L b ord (S i) l (str "--" ++ CRLF) eq_refl) as (y & Y & YA).
      change (CRLF ++ dashes b ++ str "--" ++ CRLF) with (closeParts b) in Y. rewrite Y in D.
      assert (d ++ t = (b64enc (aData a) ++ CRLF ++ dashes b) ++ y) as D2 by (rewrite <- !app_assoc; exact D).
      apply strict_prefix_cases in D2 as [(u & U & UN)|(y' & -> & YY)].
      * rewrite readPart_none by (eapply free_cut; [apply b64enc_no45|exact U|exact UN]). exact I.
      * rewrite <- !app_assoc. rewrite readPart_found by first [assumption|eapply afterOk_prefix; eassumption|apply free_no45, b64enc_no45].
        rewrite b64dec_enc by exact AD.
        assert (CRLF ++ dashes b ++ y' ++ t = writeAtts L b ord (S i) l ++ closeParts b) as EE by (rewrite Y, YY; reflexivity).
        specialize (IH (S i) f y' t F EE). destruct (parseAtts f b (mkMR (CRLF ++ dashes b ++ y') true false)) as [r| |]; [|exact I|exact I]. cbn [rbind].
        destruct IH as (pre & post & -> & ->). exists (a :: pre), post. split; reflexivity.
Qed.
Theorem C101_prefix_partial : forall L mx h msg s l rnd ord m t,
  headerOk h -> wfb msg -> firstLine msg s -> subjectOk s -> randomOk rnd -> anyOrder ord -> Forall attOk l ->
  newMsg L mx h msg l rnd ord = m ++ t ->
  match parse L m with
  | Ok (h', s', msg', atts) => h' = h /\ s' = s /\ msg' = msg /\ exists pre post, l = pre ++ post /\ Forall2 (received L) pre atts
  | _ => True
  end.
Proof.
  intros L mx h msg s l rnd ord m t H W F SO R AO A E. rewrite (newMsg_eq L mx h msg s l rnd ord F) in E. symmetry in E.
  destruct (boundary_ok rnd R) as (BT & BN & NB & N13). pose proof (first_wfb _ _ F W) as WS. destruct (subject_clean mx s WS SO) as (SC & _ & _).
  apply strict_prefix_cases in E as [(u & U & UN)|(q & -> & Q)].
  { (* cut in the mail header *)
    rewrite mailHeader_lines in U. destruct (readHdr_cut _ _ _ (mailFields_good mx h s (hexenc rnd) H (or_intror SC) BT BN) U UN) as [e RE].
    unfold parse. rewrite RE. exact I. }
  rewrite parse_header by assumption. set (b := hexenc rnd) in *. unfold parseBody.
  destruct (text_fields (ord 0%nat textKeys) (AO _ _)) as (G & C & CT & CE). set (fs := ordFields (ord 0%nat textKeys) textHeader) in *.
  rewrite createPart_lines in Q. cbn iota in Q. rewrite app_nil_l in Q.
  apply strict_prefix_cases in Q as [(u & U & UN)|(d & -> & D)].
  { destruct (nextPart b (mkMR q false false)) as [ph r| |] eqn:NP; [exfalso|exact I|exact I]. unfold nextPart in NP.
    eapply nextLoop_cut; [exact NB|exact G|exact U|exact UN|exact NP]. }
  rewrite <- !app_assoc. rewrite (nextPart_first b _ fs d NB) by (apply read_canonical; assumption).
  cbn [mrS mrLF]. rewrite CT, CE, !beq_refl. cbn [negb].
  destruct (writeAtts_tail L b ord 1 l (str "--" ++ CRLF) eq_refl) as (y & Y & YA).
  assert (d ++ t = (b64enc msg ++ CRLF ++ dashes b) ++ y) as D2 by (rewrite <- !app_assoc, <- Y; exact D).
  apply strict_prefix_cases in D2 as [(u & U & UN)|(y' & -> & YY)].
  - rewrite readPart_none by (eapply free_cut; [apply b64enc_no45|exact U|exact UN]). exact I.
  - rewrite <- !app_assoc. rewrite readPart_found by first [assumption|eapply afterOk_prefix; eassumption|apply free_no45, b64enc_no45].
    rewrite b64dec_enc by exact W.
    assert (CRLF ++ dashes b ++ y' ++ t = writeAtts L b ord 1 l ++ closeParts b) as EE by (rewrite YY, <- Y; reflexivity).
    pose proof (parseAtts_cut L b ord NB N13 AO l 1 (S (List.length (CRLF ++ dashes b ++ y'))) y' t A EE) as PC.
    destruct (parseAtts _ b (mkMR (CRLF ++ dashes b ++ y') true false)) as [r| |]; [|exact I|exact I]. cbn [rbind].
    destruct PC as (pre & post & EL & ->). repeat split. exists pre, post. split; [exact EL|].
    assert (Forall attOk pre) as AP by (rewrite EL in A; apply Forall_app in A; apply A).
    clear - AP. induction AP as [|x l AO A IH]; [constructor|]. constructor; [apply (gotten_received L 0); exact AO|exact IH].
Qed.
Example C101_ex : exists m t atts, newMsg simpleLib 63 exHdr exMsg [exAtt1; exAtt2] exRnd exOrd = m ++ t /\ t <> []
  /\ parse simpleLib m = Ok (exHdr, exSubj, exMsg, atts) /\ Forall2 (received simpleLib) [exAtt1] atts.
Proof. apply (C101_dropped simpleLib 63 exHdr exMsg exSubj [exAtt1] exAtt2 []); [exact exHdr_ok|exact exMsg_wfb|exact exMsg_first|exact exSubj_ok|exact exRnd_ok|exact exOrd_any|]. pose proof exAtts_ok as A. constructor; [exact (Forall_inv A)|constructor]. Qed.

(* ------------------------- C21: the envelope ----------------------- *)
Lemma decimal_digits u c : In c (decimal u) -> 48 <= c <= 57.
Proof.
  unfold decimal. intros I. apply in_rev in I.
  assert (forall f w, In c (dec_rev f w) -> 48 <= c <= 57) as G; [|exact (G _ _ I)]. clear.
  induction f as [|f IH]; intros w I; [destruct I|]. cbn [dec_rev] in I. destruct (w <? 10) eqn:E.
  - destruct I as [<-|[]]. lia.
  - destruct I as [<-|I]; [|exact (IH _ I)]. pose proof (N.mod_lt w 10 ltac:(lia)). lia.
Qed.
Lemma decimal_tok u : forallb isTok (decimal u) = true.
Proof. apply forallb_forall. intros c I. apply isTok_alnum. apply decimal_digits in I. unfold isAlnum. lia. Qed.
Lemma decimal_nonnil u : u < 2 ^ 64 -> decimal u <> [].
Proof. intros H E. pose proof (parse_dec_decimal u H) as P. rewrite E in P. discriminate. Qed.
Definition printText (v : bytes) : Prop := Forall (fun c => 32 <= c <= 126) v.
Lemma printText_spec v : printText v -> printable v = true.
Proof. unfold printText, printable. intros F. apply forallb_forall. rewrite Forall_forall in F. intros c I. specialize (F c I). lia. Qed.
Lemma media_chunk L p n mid : p < 2 ^ 64 -> n < 2 ^ 64 -> mid <> [] -> printText mid ->
  parseMediaType (str "chunked; piece=" ++ decimal p ++ str "; count=" ++ decimal n ++ str "; chunkid=" ++ goQuote L mid)
  = Ok (str "chunked", [(str "piece", decimal p); (str "count", decimal n); (str "chunkid", mid)]).
Proof.
  intros Hp Hn M P.
  change (str "chunked; piece=" ++ decimal p ++ str "; count=" ++ decimal n ++ str "; chunkid=" ++ goQuote L mid)
    with (str "chunked" ++ str "; " ++ str "piece" ++ 61 :: decimal p ++ str "; " ++ str "count" ++ 61 :: decimal n ++ str "; " ++ str "chunkid" ++ 61 :: goQuote L mid).
  rewrite (parseMediaType_params _ _ (str "chunked"));
    [|intros I; cbn in I; repeat (destruct I as [I|I]; [discriminate|]); exact I|reflexivity|reflexivity].
  rewrite (params_step _ [] (str "piece") (decimal p) _ (str "; " ++ str "count" ++ 61 :: decimal n ++ str "; " ++ str "chunkid" ++ 61 :: goQuote L mid));
    [|apply (mediaParam_tok (str "piece")); [discriminate|reflexivity|apply decimal_nonnil; exact Hp|apply decimal_tok|reflexivity]|reflexivity].
  match goal with |- context [List.length (str "; " ++ ?x)] => change (List.length (str "; " ++ x)) with (S (S (List.length x))) end.
  rewrite (params_step _ _ (str "count") (decimal n) _ (str "; " ++ str "chunkid" ++ 61 :: goQuote L mid));
    [|apply (mediaParam_tok (str "count")); [discriminate|reflexivity|apply decimal_nonnil; exact Hn|apply decimal_tok|reflexivity]|reflexivity].
  rewrite (params_step _ _ (str "chunkid") mid _ []); [rewrite params_done; reflexivity| |reflexivity].
  pose proof (mediaParam_quoted L (str "chunkid") mid []) as Q. rewrite app_nil_r in Q. apply Q; [discriminate|reflexivity|exact M|apply printText_spec; exact P].
Qed.
Lemma goQuote_chars L v c : printText v -> In c (goQuote L v) -> 32 <= c <= 126.
Proof.
  intros P. unfold goQuote. rewrite (printText_spec v P). intros I. apply in_app_or in I as [[<-|[]]|I]; [lia|].
  apply in_app_or in I as [I|[<-|[]]]; [|lia]. apply in_concat in I as (w & Iw & Ic). apply in_map_iff in Iw as (x & <- & Ix).
  unfold printText in P. rewrite Forall_forall in P. specialize (P x Ix). unfold quoteByte in Ic. destruct ((x =? 34) || (x =? 92)).
  - destruct Ic as [<-|[<-|[]]]; lia.
  - destruct Ic as [<-|[]]. exact P.
Qed.
Lemma chunk_clean L p n mid : printText mid ->
  clean (str "chunked; piece=" ++ decimal p ++ str "; count=" ++ decimal n ++ str "; chunkid=" ++ goQuote L mid) = true.
Proof.
  intros P. unfold clean. apply andb_true_iff. split.
  - apply forallb_forall. intros c I. assert (32 <= c <= 126) as R; [|unfold is_nl; lia].
    apply in_app_or in I as [I|I]; [cbn in I; repeat (destruct I as [<-|I]; [lia|]); destruct I|].
    apply in_app_or in I as [I|I]; [apply decimal_digits in I; lia|].
    apply in_app_or in I as [I|I]; [cbn in I; repeat (destruct I as [<-|I]; [lia|]); destruct I|].
    apply in_app_or in I as [I|I]; [apply decimal_digits in I; lia|].
    apply in_app_or in I as [I|I]; [cbn in I; repeat (destruct I as [<-|I]; [lia|]); destruct I|].
    eapply goQuote_chars; [exact P|exact I].
  - match goal with |- match ?x with [] => _ | _ => _ end = true => assert (last x 0 = 34) as E end.
    { rewrite !app_assoc. rewrite last_app by (unfold goQuote; rewrite (printText_spec mid P); discriminate).
      unfold goQuote. rewrite (printText_spec mid P). rewrite app_assoc. apply last_last. }
    change (str "chunked; piece=" ++ ?x) with (99 :: (str "hunked; piece=" ++ x)) in *. cbn iota. rewrite E. reflexivity.
Qed.
Lemma free_part b m u v c : free b m -> m = u ++ c ++ v -> free b c.
Proof. intros F E x y C. apply (F (u ++ x) (y ++ v)). rewrite E, C, <- !app_assoc. reflexivity. Qed.
Lemma decode_chunk L mx h c rnd (o : list bytes -> list bytes) : headerOk h -> printText (mMid h) -> randomOk rnd -> (forall ks, Permutation (o ks) ks) ->
  piece c < 2 ^ 64 -> count c < 2 ^ 64 -> chunkid c = mMid h -> free (hexenc rnd) (part c) ->
  decodeChunk L (chunkMsg L mx h c rnd o) = Ok (h, part c, piece c, count c).
Proof.
  intros H P R O Hp Hc CI F. pose proof (random_nonnil rnd R) as RN. destruct (boundary_ok rnd R) as (BT & BN & NB & N13).
  unfold chunkMsg, boundaryOf, decodeChunk. cbv zeta. rewrite mailHeader_lines, <- app_assoc.
  rewrite readHdr_lines by (apply mailFields_good; auto). cbn [rbind]. fold (readFields mx h [] (hexenc rnd)).
  destruct (get_fields mx h [] (hexenc rnd)) as (G1 & G2 & G3 & _ & G5 & G6 & _ & G8). rewrite G1, G2, G3, G5, G6, G8. clear G1 G2 G3 G5 G6 G8.
  rewrite ccList_fields by exact H. cbn [rbind]. rewrite media_boundary by (try exact RN; apply R). cbn [rbind]. rewrite beq_refl. cbn [negb].
  change (pget (str "boundary") [(str "boundary", hexenc rnd)]) with (hexenc rnd). set (b := hexenc rnd) in *.
  rewrite createPart_lines. cbn iota. rewrite app_nil_l, <- !app_assoc.
  pose proof H as (_ & _ & (MN & _) & _).
  assert (Forall goodField (ordFields (o textKeys) (chunkHeader L c))) as G.
  { apply Forall_ordFields. unfold chunkHeader. constructor; [|constructor; [|constructor]]; (split; [discriminate|split; [reflexivity|]]); [|reflexivity].
    cbn [snd]. apply chunk_clean. rewrite CI. exact P. }
  assert (Forall canonical (ordFields (o textKeys) (chunkHeader L c))) as C by (apply Forall_ordFields; constructor; [reflexivity|constructor; [reflexivity|constructor]]).
  rewrite (nextPart_first b _ (ordFields (o textKeys) (chunkHeader L c)) (part c ++ closeParts b) NB) by (apply read_canonical; assumption).
  cbn [mrS mrLF]. unfold hget at 1. rewrite hvalues_ord.
  2:{ apply (Permutation_NoDup (l := textKeys)); [apply Permutation_sym, O|]. unfold textKeys. constructor; [intros [E|[]]; discriminate|constructor; [intros []|constructor]]. }
  2:{ apply (Permutation_in (l := textKeys)); [apply Permutation_sym, O|]. left. reflexivity. }
  change (hd [] (hvalues (str "Content-Type") (chunkHeader L c))) with (str "chunked; piece=" ++ decimal (piece c) ++ str "; count=" ++ decimal (count c) ++ str "; chunkid=" ++ goQuote L (chunkid c)).
  rewrite CI. rewrite media_chunk by assumption. cbn [rbind].
  change (pget (str "piece") [(str "piece", decimal (piece c)); (str "count", decimal (count c)); (str "chunkid", mMid h)]) with (decimal (piece c)).
  change (pget (str "count") [(str "piece", decimal (piece c)); (str "count", decimal (count c)); (str "chunkid", mMid h)]) with (decimal (count c)).
  change (pget (str "chunkid") [(str "piece", decimal (piece c)); (str "count", decimal (count c)); (str "chunkid", mMid h)]) with (mMid h).
  rewrite !parse_dec_decimal by assumption. rewrite beq_refl. cbn [negb]. unfold closeParts.
  rewrite readPart_found by (try assumption; reflexivity). destruct h; reflexivity.
Qed.
(* the i-th chunk, counted from 1, and the total *)
Fixpoint decoded (h : mhdr) (i n : N) (texts : list bytes) : list (res (mhdr * bytes * N * N)) :=
  match texts with [] => [] | t :: r => Ok (h, t, i, n) :: decoded h (i + 1) n r end.
Fixpoint sizes (size : N) (texts : list bytes) : Prop :=
  match texts with [] => True | [t] => 0 < lenN t <= size | t :: r => lenN t = size /\ sizes size r end.
Theorem C21_envelope : forall L mx h msg size rnd ord,
  headerOk h -> printText (mMid h) -> 0 < size < 2 ^ 64 -> lenN msg < 2 ^ 63 ->
  (forall i, randomOk (rnd i)) -> anyOrder ord ->
  (forall i u v, msg <> u ++ str "--" ++ hexenc (rnd i) ++ v) ->
  exists chunks texts, encodeChunkMsgs L mx h msg size rnd ord = Ok chunks
    /\ map (decodeChunk L) chunks = decoded h 1 (lenN texts) texts
    /\ concat texts = msg /\ sizes size texts.
Proof.
  intros L mx h msg size rnd ord H P SZ LM R AO FR. unfold encodeChunkMsgs.
  destruct (encodeChunks_spec (mMid h) msg size SZ LM) as (cs & -> & CC & NU & SI). cbn [rbind].
  exists (chunkMsgs L mx 0 h rnd ord cs), (map part cs). split; [reflexivity|]. split; [|split; [exact CC|]].
  - rewrite lenN_map. assert (lenN cs < 2 ^ 63) as LC.
    { assert (lenN cs <= lenN (concat (map part cs))) as LE; [|rewrite CC in LE; lia]. clear - SI SZ.
      induction cs as [|c cs IH]; [apply N.le_refl|]. cbn [map concat]. rewrite lenN_cons, lenN_app.
      destruct cs as [|c2 cs]; [cbn [sized] in SI; cbn [map concat]; rewrite !lenN_nil; lia|]. destruct SI as [S1 S2]. specialize (IH S2). lia. }
    assert (forall j, Forall (fun c => free (hexenc (rnd j)) (part c)) cs) as FF.
    { intros j. assert (free (hexenc (rnd j)) msg) as FM by (intros u v E; exact (FR j u v E)). rewrite <- CC in FM. clear - FM.
      induction cs as [|c cs IH]; [constructor|]. constructor.
      - eapply (free_part _ _ [] (concat (map part cs))); [exact FM|reflexivity].
      - apply IH. eapply (free_part _ _ (part c) []); [exact FM|]. rewrite app_nil_r. reflexivity. }
    assert (forall i, 1 <= i -> forall n, i + lenN cs <= 2 ^ 63 + 1 -> n < 2 ^ 63 -> numbered i n (mMid h) cs -> forall k, map (decodeChunk L) (chunkMsgs L mx k h rnd ord cs) = decoded h i n (map part cs)) as G.
    { clear NU CC SI LC. induction cs as [|c cs IH]; intros i Hi n Hn HN NU k; [reflexivity|]. cbn [chunkMsgs map decoded]. cbn [numbered] in NU. destruct NU as (PC & NC & IC & NU).
      rewrite lenN_cons in Hn. rewrite decode_chunk; try assumption; [|apply R|apply AO|rewrite PC; change (2 ^ 64) with 18446744073709551616; change (2 ^ 63) with 9223372036854775808 in *; lia|rewrite NC; change (2 ^ 64) with 18446744073709551616; change (2 ^ 63) with 9223372036854775808 in *; lia|exact (Forall_inv (FF k))].
      rewrite PC, NC. f_equal. apply IH; [intros j; exact (Forall_inv_tail (FF j))|lia|change (2 ^ 63) with 9223372036854775808 in *; lia|exact HN|exact NU]. }
    apply G; [lia|change (2 ^ 63) with 9223372036854775808 in *; lia|exact LC|exact NU].
  - clear - SI. induction cs as [|c cs IH]; [exact I|]. destruct cs as [|c2 cs]; [exact SI|]. destruct SI as [S1 S2]. split; [exact S1|]. apply (IH S2).
Qed.
Example C21_envelope_ex : exists chunks texts, encodeChunkMsgs simpleLib 63 exHdr exMsg 10 (fun _ => exRnd) exOrd = Ok chunks
  /\ map (decodeChunk simpleLib) chunks = decoded exHdr 1 (lenN texts) texts /\ concat texts = exMsg /\ sizes 10 texts /\ lenN texts = 3.
Proof.
  destruct (C21_envelope simpleLib 63 exHdr exMsg 10 (fun _ => exRnd) exOrd) as (ch & te & A & B & C & D);
    [exact exHdr_ok|apply Forall_forall; intros c I; cbn in I; repeat (destruct I as [<-|I]; [lia|]); destruct I|split; reflexivity|reflexivity|intros; exact exRnd_ok|exact exOrd_any| |].
  - intros i u v E. assert (In 45 exMsg) as I by (rewrite E; apply in_or_app; right; left; reflexivity). cbn in I. repeat (destruct I as [I|I]; [discriminate|]). exact I.
  - exists ch, te. split; [exact A|]. split; [exact B|]. split; [exact C|]. split; [exact D|].
    assert (lenN te = 3 \/ lenN te <> 3) as [E|E] by lia; [exact E|exfalso].
    assert (List.length ch = 3%nat) as L3.
    { assert (option_map (@List.length bytes) (match encodeChunkMsgs simpleLib 63 exHdr exMsg 10 (fun _ => exRnd) exOrd with Ok x => Some x | _ => None end) = Some 3%nat) as Q by (vm_compute; reflexivity).
      rewrite A in Q. cbn in Q. injection Q. auto. }
    apply (f_equal (@List.length _)) in B. rewrite map_length, L3 in B.
    assert (forall t i n, List.length (decoded exHdr i n t) = List.length t) as LD by (intros t; induction t as [|x t IH]; intros i n; [reflexivity|]; cbn; rewrite IH; reflexivity).
    rewrite LD in B. apply E. unfold lenN. rewrite <- B. reflexivity.
Qed.

Print Assumptions C21_envelope.
Print Assumptions C22_roundtrip_partial.
Print Assumptions C22_no_subject.
Print Assumptions C22_refuted.
Print Assumptions C99_arrive_partial.
Print Assumptions C99_bad_name.
Print Assumptions C99_refuted.
Print Assumptions C100_crash.
Print Assumptions C100_refuted.
Print Assumptions C100_chunk.
Print Assumptions C100_only_partial.
Print Assumptions C101_dropped.
Print Assumptions C101_refuted.
Print Assumptions C101_prefix_partial.
