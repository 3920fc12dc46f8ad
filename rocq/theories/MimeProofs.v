(* Lemmas about MimeModel: header fields, encoded words, media types, multipart bodies. *)
From Verif Require Import Base Base64Model Base64Proofs CodecModel CodecProofs Utf8Model MimeModel.
From Coq Require Import Permutation.
Local Open Scope N_scope.
Delimit Scope string_scope with string.

(* ---- header fields ---- *)
Lemma trim_left_id l : match l with [] => True | c :: _ => is_wsp c = false end -> trim_left l = l.
Proof. destruct l as [|c l]; cbn [trim_left]; [reflexivity|]. intros ->. reflexivity. Qed.
Lemma last_rev (l : bytes) d : last l d = hd d (rev l).
Proof.
  induction l as [|x l IH] using rev_ind; [reflexivity|]. rewrite rev_app_distr. cbn [rev app hd]. apply last_last.
Qed.
Lemma trim_id l : is_wsp (hd 0 l) = false -> is_wsp (last l 0) = false -> trim l = l.
Proof.
  intros A B. unfold trim. rewrite (trim_left_id l); [|destruct l; [exact I|exact A]].
  rewrite last_rev in B. rewrite trim_left_id; [apply rev_involutive|]. destruct (rev l); [exact I|exact B].
Qed.
Lemma keyByte_ok c : keyByte c = true -> is_wsp c = false /\ is_nl c = false /\ (c =? 58) = false /\ c <> 32.
Proof.
  unfold keyByte. intros H. apply orb_true_iff in H as [H|H].
  - unfold isAlnum in H. unfold is_wsp, is_nl. repeat split; lia.
  - apply existsb_exists in H as (x & I & E). apply N.eqb_eq in E as ->. cbn in I.
    repeat (destruct I as [<-|I]; [repeat split; try reflexivity; discriminate|]). destruct I.
Qed.
Definition goodField (p : bytes * bytes) : Prop := fst p <> [] /\ forallb keyByte (fst p) = true /\ clean (snd p) = true.
Definition lines (fs : list (bytes * bytes)) : bytes := concat (map (fun p => headerLine (fst p) (snd p)) fs).
Lemma no_nl_app a b : no_nl (a ++ b) <-> no_nl a /\ no_nl b.
Proof. unfold no_nl. apply forallb_app_iff. Qed.
Lemma keys_no_nl k : forallb keyByte k = true -> no_nl k.
Proof.
  intros H. unfold no_nl. rewrite forallb_forall in *. intros x I. destruct (keyByte_ok x (H x I)) as (_ & E & _). rewrite E. reflexivity.
Qed.
Lemma clean_no_nl v : clean v = true -> no_nl v.
Proof. unfold clean. intros H. apply andb_true_iff in H as [H _]. exact H. Qed.
Lemma clean_ends c v : clean (c :: v) = true -> is_wsp c = false /\ is_wsp (last (c :: v) 0) = false.
Proof. unfold clean. intros H. apply andb_true_iff in H as [_ H]. apply andb_true_iff in H as [A B]. split; apply negb_true_iff; assumption. Qed.
Lemma index_byte_skip k r : forallb keyByte k = true -> index_byte 58 (k ++ 58 :: r) = Some (lenN k).
Proof.
  induction k as [|c k IH]; intros H; cbn [app index_byte]; [reflexivity|].
  cbn [forallb] in H. apply andb_true_iff in H as [A B]. destruct (keyByte_ok c A) as (_ & _ & E & _). rewrite E, (IH B).
  rewrite lenN_cons. f_equal. lia.
Qed.
Lemma trimKey_id k : forallb keyByte k = true -> trimKey k = k.
Proof.
  destruct k as [|c k]; [reflexivity|]. cbn [forallb]. intros H. apply andb_true_iff in H as [A _].
  destruct (keyByte_ok c A) as (_ & _ & _ & E). cbn [trimKey].
  destruct c as [|p]; [reflexivity|]. do 6 (destruct p as [p|p|]; try reflexivity). elim E. reflexivity.
Qed.
Lemma last_app (a b : bytes) d : b <> [] -> last (a ++ b) d = last b d.
Proof.
  intros H. rewrite !last_rev, rev_app_distr. destruct (rev b) eqn:E; [|reflexivity].
  elim H. rewrite <- (rev_involutive b), E. reflexivity.
Qed.
(* the field as trimmed by the reader *)
Definition trimmedField (k v : bytes) : bytes := match v with [] => k ++ [58] | _ => k ++ [58; 32] ++ v end.
Lemma trim_field k v : k <> [] -> forallb keyByte k = true -> clean v = true -> trim (k ++ [58; 32] ++ v) = trimmedField k v.
Proof.
  intros K KB V. destruct k as [|c k]; [elim K; reflexivity|].
  assert (is_wsp c = false) as W by (cbn [forallb] in KB; apply andb_true_iff in KB as [A _]; apply (keyByte_ok c A)).
  unfold trimmedField. destruct v as [|x v].
  - unfold trim. rewrite (trim_left_id ((c :: k) ++ [58; 32] ++ [])) by exact W.
    rewrite app_nil_r, rev_app_distr. cbn [rev app trim_left is_wsp]. change (is_wsp 32) with true. change (is_wsp 58) with false. cbn iota.
    change ((rev (rev k ++ [c]) ++ [58]) = c :: k ++ [58]). rewrite rev_app_distr, rev_involutive. reflexivity.
  - apply trim_id; [exact W|]. rewrite app_assoc, last_app by discriminate. apply (clean_ends x v V).
Qed.
Lemma readLine_field k v r : k <> [] -> forallb keyByte k = true -> clean v = true ->
  readLine (headerLine k v ++ r) = Some (k ++ [58; 32] ++ v, r).
Proof.
  intros K KB V. unfold headerLine. destruct k as [|c k]; [elim K; reflexivity|].
  rewrite <- !app_assoc. rewrite (app_assoc [58; 32] v (CRLF ++ r)), (app_assoc (c :: k)).
  assert (no_nl ((c :: k) ++ [58; 32] ++ v)) as NL.
  { apply no_nl_app; split; [apply keys_no_nl; exact KB|]. apply no_nl_app; split; [reflexivity|apply clean_no_nl; exact V]. }
  change (readLine (((c :: k) ++ [58; 32] ++ v) ++ CRLF ++ r))
    with (match cut_nl (((c :: k) ++ [58; 32] ++ v) ++ CRLF ++ r) with (l, Some r) => Some (chop_cr l, r) | (l, None) => Some (l, []) end).
  rewrite cut_nl_crlf by exact NL. rewrite chop_cr_snoc. reflexivity.
Qed.
Lemma contLines_none f acc s : match s with [] => True | c :: _ => is_wsp c = false end -> contLines f acc s = (acc, s).
Proof.
  intros H. destruct f as [|f]; [reflexivity|]. cbn [contLines]. rewrite trim_left_id by exact H. rewrite N.eqb_refl. reflexivity.
Qed.
Definition headOk (s : bytes) : Prop := match s with [] => True | c :: _ => is_wsp c = false end.
Lemma readMIME_step f k v r : k <> [] -> forallb keyByte k = true -> clean v = true -> headOk r ->
  readMIME (S f) (headerLine k v ++ r) = (do (h, body) <- readMIME f r; Ok ((canon k, v) :: h, body)).
Proof.
  intros K KB V R. cbn [readMIME]. rewrite readLine_field by assumption.
  destruct ((k ++ [58; 32] ++ v)) as [|c l] eqn:E; [destruct k; [elim K; reflexivity|discriminate]|].
  rewrite <- E at 1. rewrite trim_field by assumption. rewrite contLines_none by exact R.
  assert (exists t, trimmedField k v = k ++ 58 :: t /\ trim_left t = v) as (t & T & TV).
  { unfold trimmedField. destruct v as [|x v]; [exists []; split; reflexivity|]. exists (32 :: x :: v). split; [reflexivity|].
    cbn [trim_left]. change (is_wsp 32) with true. cbn iota. destruct (clean_ends x v V) as [W _]. rewrite W. reflexivity. }
  rewrite T. destruct (k ++ 58 :: t) as [|c' l'] eqn:E2; [destruct k; discriminate|]. rewrite <- E2.
  rewrite index_byte_skip by exact KB. rewrite takeN_app by reflexivity.
  rewrite trimKey_id by (rewrite forallb_forall in *; intros x I; apply KB, in_rev; exact I). rewrite rev_involutive.
  replace (k ++ 58 :: t) with ((k ++ [58]) ++ t) by (rewrite <- app_assoc; reflexivity).
  rewrite dropN_app by (rewrite lenN_app; reflexivity). rewrite TV.
  assert (beq (canon k) [] = false) as CK.
  { unfold canon. rewrite KB. destruct k; [elim K; reflexivity|reflexivity]. }
  rewrite CK. destruct (readMIME f r) as [[h body]| |]; reflexivity.
Qed.
Lemma headOk_lines fs body : Forall goodField fs -> headOk (lines fs ++ CRLF ++ body).
Proof.
  intros F. destruct fs as [|[k v] fs]; [reflexivity|]. apply Forall_inv in F as (K & KB & _). cbn [fst] in K, KB.
  destruct k as [|c k]; [elim K; reflexivity|]. cbn [forallb] in KB. apply andb_true_iff in KB as [A _].
  change (is_wsp c = false). apply (keyByte_ok c A).
Qed.
Lemma readMIME_lines fs : forall f body, Forall goodField fs -> (List.length fs < f)%nat ->
  readMIME f (lines fs ++ CRLF ++ body) = Ok (map (fun p => (canon (fst p), snd p)) fs, body).
Proof.
  induction fs as [|[k v] fs IH]; intros f body F Hf; (destruct f as [|f]; [cbn in Hf; lia|]).
  - reflexivity.
  - pose proof (Forall_inv F) as (K & KB & V). cbn [fst snd] in K, KB, V. apply Forall_inv_tail in F.
    change (lines ((k, v) :: fs)) with (headerLine k v ++ lines fs). rewrite <- app_assoc.
    rewrite readMIME_step by (try assumption; apply headOk_lines; exact F).
    rewrite IH by (try assumption; cbn in Hf; lia). reflexivity.
Qed.
Lemma length_lines fs : (List.length fs <= List.length (lines fs))%nat.
Proof.
  induction fs as [|[k v] fs IH]; [cbn; lia|]. change (lines ((k, v) :: fs)) with (headerLine k v ++ lines fs).
  rewrite app_length. unfold headerLine. rewrite !app_length. cbn [List.length]. lia.
Qed.
Lemma readHdr_lines fs body : Forall goodField fs ->
  readHdr (lines fs ++ CRLF ++ body) = Ok (map (fun p => (canon (fst p), snd p)) fs, body).
Proof.
  intros F. unfold readHdr. apply readMIME_lines; [exact F|]. rewrite app_length. pose proof (length_lines fs). lia.
Qed.
(* a header that is cut off is an error *)
Lemma strict_prefix_cases (p a b : bytes) t : p ++ t = a ++ b -> (exists u, a = p ++ u /\ u <> []) \/ (exists q, p = a ++ q /\ q ++ t = b).
Proof.
  revert a; induction p as [|x p IH]; intros a E.
  - destruct a as [|y a]; [right; exists []; split; [reflexivity|exact E]|left; exists (y :: a); split; [reflexivity|discriminate]].
  - destruct a as [|y a]; cbn [app] in E; [right; exists (x :: p); split; [reflexivity|exact E]|].
    injection E as -> E. destruct (IH a E) as [(u & -> & U)|(q & -> & Q)]; [left; exists u|right; exists q]; split; auto.
Qed.
Lemma readLine_unterminated (p : bytes) : p <> [] -> ~ In 10 p -> readLine p = Some (p, []).
Proof.
  intros P NI. unfold readLine. destruct p as [|c p]; [elim P; reflexivity|].
  assert (forall l : bytes, ~ In 10 l -> cut_nl l = (l, None)) as C.
  { intros l. induction l as [|x l IH]; [reflexivity|]. intros H. cbn [cut_nl]. destruct (N.eqb_spec x 10) as [->|_]; [elim H; left; reflexivity|].
    rewrite IH by (intros I; apply H; right; exact I). reflexivity. }
  rewrite C by exact NI. reflexivity.
Qed.
Lemma no_nl_not_in l : no_nl l -> ~ In 10 l /\ ~ In 13 l.
Proof. unfold no_nl. rewrite forallb_forall. intros H; split; intros I; apply H in I; discriminate. Qed.
Lemma readMIME_unterminated f p : p <> [] -> ~ In 10 p -> is_wsp (hd 0 p) = false -> exists e, readMIME f p = Err e.
Proof.
  intros P NI W. destruct f as [|f]; [eexists; reflexivity|]. cbn [readMIME]. rewrite readLine_unterminated by assumption.
  destruct p as [|c p]; [elim P; reflexivity|]. cbn [List.length contLines].
  destruct (trim (c :: p)) as [|x l] eqn:T.
  { exfalso. assert (In c (trim (c :: p))) as I by (apply trim_in; [exact W|left; reflexivity]). rewrite T in I. destruct I. }
  destruct (index_byte 58 (x :: l)); [|eexists; reflexivity].
  assert (exists e, readMIME f [] = Err e) as [e ->] by (destruct f; eexists; reflexivity). eexists. reflexivity.
Qed.
Lemma readMIME_cut fs : forall f p t body, Forall goodField fs -> lines fs ++ CRLF = p ++ t -> t <> [] -> body = p -> exists e, readMIME f body = Err e.
Proof.
  induction fs as [|[k v] fs IH]; intros f p t body F E T ->.
  - destruct p as [|a p]; [destruct f; eexists; reflexivity|]. cbn [lines map concat app] in E.
    injection E as <- E. destruct p as [|b p]; [apply readMIME_unterminated; [discriminate|intros [I|[]]; discriminate|reflexivity]|].
    injection E as <- E. symmetry in E. apply app_eq_nil in E as [_ E]. contradiction.
  - pose proof (Forall_inv F) as (K & KB & V). cbn [fst snd] in K, KB, V. apply Forall_inv_tail in F.
    change (lines ((k, v) :: fs)) with (headerLine k v ++ lines fs) in E. rewrite <- app_assoc in E. symmetry in E.
    apply strict_prefix_cases in E as [(u & U & UN)|(q & -> & Q)].
    + destruct p as [|c p]; [destruct f; eexists; reflexivity|].
      assert (is_wsp c = false) as W.
      { destruct k as [|c' k]; [elim K; reflexivity|]. cbn [headerLine app] in U. injection U as -> _. cbn [forallb] in KB.
        apply andb_true_iff in KB as [A _]. apply (keyByte_ok c A). }
      apply readMIME_unterminated; [discriminate| |exact W].
      intros I. unfold headerLine, CRLF in U.
      replace (k ++ [58; 32] ++ v ++ [13; 10]) with ((k ++ [58; 32] ++ v ++ [13]) ++ [10]) in U by (rewrite <- !app_assoc; reflexivity).
      destruct (exists_last UN) as (u' & z & ->). rewrite (app_assoc (c :: p) u' [z]) in U. apply app_inj_tail in U as [U _].
      assert (In 10 (k ++ [58; 32] ++ v ++ [13])) as J by (rewrite U; apply in_or_app; left; exact I).
      apply in_app_or in J as [J|J]; [exact (proj1 (no_nl_not_in k (keys_no_nl k KB)) J)|].
      cbn [app] in J. destruct J as [J|[J|J]]; [discriminate|discriminate|].
      apply in_app_or in J as [J|[J|[]]]; [|discriminate]. exact (proj1 (no_nl_not_in v (clean_no_nl v V)) J).
    + destruct f as [|f]; [eexists; reflexivity|].
      assert (headOk q) as HQ.
      { pose proof (headOk_lines fs [] F) as HL. rewrite app_nil_r in HL. rewrite <- Q in HL. destruct q; [exact I|exact HL]. }
      rewrite readMIME_step by assumption. destruct (IH f q t q F (eq_sym Q) T eq_refl) as [e ->]. eexists; reflexivity.
Qed.
Lemma readHdr_cut fs p t : Forall goodField fs -> lines fs ++ CRLF = p ++ t -> t <> [] -> exists e, readHdr p = Err e.
Proof. intros F E T. unfold readHdr. eapply readMIME_cut; [exact F|exact E|exact T|reflexivity]. Qed.

(* ---- encoded words ---- *)
Lemma hexval_up n : n < 16 -> hexval (hexUp n) = Some n.
Proof.
  intros H. unfold hexUp, hexval. destruct (N.ltb_spec n 10) as [A|A].
  - replace ((48 <=? 48 + n) && (48 + n <=? 57)) with true by lia. f_equal. lia.
  - replace ((48 <=? 65 + (n - 10)) && (65 + (n - 10) <=? 57)) with false by lia.
    replace ((97 <=? 65 + (n - 10)) && (65 + (n - 10) <=? 102)) with false by lia.
    replace ((65 <=? 65 + (n - 10)) && (65 + (n - 10) <=? 70)) with true by lia. f_equal. lia.
Qed.
Lemma qDecode_byte c s : c < 256 -> qDecode (qByte c ++ s) = option_map (cons c) (qDecode s).
Proof.
  intros H. unfold qByte. destruct (N.eqb_spec c 32) as [->|N32]; [reflexivity|].
  destruct (qplain c) eqn:Q.
  - unfold qplain in Q. cbn [app qDecode]. replace (c =? 95) with false by lia. replace (c =? 61) with false by lia.
    replace ((32 <=? c) && (c <=? 126)) with true by lia. reflexivity.
  - cbn [app qDecode]. change (61 =? 95) with false. change (61 =? 61) with true. cbn iota.
    rewrite hexval_up by (apply N.div_lt_upper_bound; lia). rewrite hexval_up by (apply N.mod_lt; lia).
    replace (c / 16 * 16 + c mod 16) with c; [reflexivity|]. rewrite (N.div_mod c 16) at 1 by lia. lia.
Qed.
Lemma qDecode_string s : wfb s -> qDecode (qString s) = Some s.
Proof.
  intros W. induction W as [|c s H W IH]; [reflexivity|]. change (qString (c :: s)) with (qByte c ++ qString s).
  rewrite qDecode_byte by exact H. rewrite IH. reflexivity.
Qed.
Lemma qString_chars s c : wfb s -> In c (qString s) -> c <> 63 /\ 33 <= c <= 126.
Proof.
  unfold qString. intros W I. apply in_concat in I as (w & Iw & Ic). apply in_map_iff in Iw as (x & <- & Ix).
  assert (x < 256) as X by (unfold wfb in W; rewrite Forall_forall in W; apply W; exact Ix).
  unfold qByte in Ic. destruct (x =? 32); [destruct Ic as [<-|[]]; split; [discriminate|lia]|].
  destruct (qplain x) eqn:Q; [destruct Ic as [<-|[]]; unfold qplain in Q; split; lia|].
  assert (forall n, n < 16 -> hexUp n <> 63 /\ 33 <= hexUp n <= 126) as HU by (intros n Hn; unfold hexUp; destruct (n <? 10) eqn:E; split; lia).
  destruct Ic as [<-|[<-|[<-|[]]]]; [split; [discriminate|lia]| |]; apply HU; [apply N.div_lt_upper_bound; lia|apply N.mod_lt; lia].
Qed.
Lemma qString_app a b : qString (a ++ b) = qString a ++ qString b.
Proof. unfold qString. rewrite map_app, concat_app. reflexivity. Qed.
Definition laterWord (c : bytes) : bytes := closeWord ++ [32] ++ openWord ++ qString c.
Lemma laterWord_app a b : laterWord (a ++ b) = closeWord ++ [32] ++ openWord ++ qString a ++ qString b.
Proof. unfold laterWord. rewrite qString_app. reflexivity. Qed.
Lemma qLoop_words f mx : forall cur s, (List.length s <= f)%nat ->
  exists c cs, s = c ++ concat cs /\ qLoop f mx cur s = qString c ++ concat (map laterWord cs).
Proof.
  induction f as [|f IH]; intros cur s Hf.
  - destruct s; [exists [], []; split; reflexivity|cbn in Hf; lia].
  - destruct s as [|b s]; [exists [], []; split; reflexivity|]. cbn [qLoop]. cbv zeta.
    assert (exists rl el, (if (b =? 32) || qplain b then (1, 1) else (lenN (b :: s) - lenN (snd (decodeRune b s)), 3 * (lenN (b :: s) - lenN (snd (decodeRune b s))))) = (rl, el)
            /\ (List.length (dropN rl (b :: s)) <= f)%nat) as (rl & el & -> & LR).
    { destruct ((b =? 32) || qplain b).
      - exists 1, 1. split; [reflexivity|]. change (dropN 1 (b :: s)) with s. cbn in Hf. lia.
      - eexists _, _. split; [reflexivity|].
        destruct (decodeRune b s) as [r t] eqn:D. apply decode_length in D. cbn [snd].
        pose proof (lenN_dropN (lenN (b :: s) - lenN t) (b :: s)) as LD. unfold lenN in *. cbn [List.length] in *. lia. }
    cbv beta iota zeta. destruct (mx <? cur + el).
    + destruct (IH el (dropN rl (b :: s)) LR) as (c & cs & E & ->).
      exists [], ((takeN rl (b :: s) ++ c) :: cs). split.
      * cbn [app concat]. rewrite <- app_assoc, <- E. symmetry. apply takeN_dropN.
      * cbn [map concat]. change (qString []) with (@nil N). rewrite laterWord_app. rewrite <- !app_assoc. reflexivity.
    + destruct (IH (cur + el) (dropN rl (b :: s)) LR) as (c & cs & E & ->).
      exists (takeN rl (b :: s) ++ c), cs. split.
      * rewrite <- app_assoc, <- E. symmetry. apply takeN_dropN.
      * rewrite qString_app, <- app_assoc. reflexivity.
Qed.
Lemma cut2_none_app a b u v : ~ In a u -> cut2 a b (u ++ a :: b :: v) = Some (u, v).
Proof.
  induction u as [|x u IH]; intros H; cbn [app cut2].
  - rewrite !N.eqb_refl. reflexivity.
  - destruct (u ++ a :: b :: v) as [|y t] eqn:E; [destruct u; discriminate|].
    destruct (N.eqb_spec x a) as [->|_]; [elim H; left; reflexivity|]. cbn [andb].
    rewrite IH by (intros I; apply H; right; exact I). reflexivity.
Qed.
Lemma cut1_app a u v : ~ In a u -> cut1 a (u ++ a :: v) = Some (u, v).
Proof.
  induction u as [|x u IH]; intros H; cbn [app cut1]; [rewrite N.eqb_refl; reflexivity|].
  destruct (N.eqb_spec x a) as [->|_]; [elim H; left; reflexivity|].
  rewrite IH by (intros I; apply H; right; exact I). reflexivity.
Qed.
Lemma cut1_none a u : ~ In a u -> cut1 a u = None.
Proof.
  induction u as [|x u IH]; intros H; cbn [cut1]; [reflexivity|].
  destruct (N.eqb_spec x a) as [->|_]; [elim H; left; reflexivity|].
  rewrite IH by (intros I; apply H; right; exact I). reflexivity.
Qed.
(* one word at the start of the text, with an optional blank before it *)
Lemma decLoop_word f between pre c rest : wfb c -> pre = [] \/ pre = [32] ->
  decLoop (S f) between (pre ++ openWord ++ qString c ++ closeWord ++ rest)
  = (do r <- decLoop f true rest; Ok ((if between && blank pre then [] else pre) ++ c ++ r)).
Proof.
  intros W P. cbn [decLoop].
  assert (cut2 61 63 (pre ++ openWord ++ qString c ++ closeWord ++ rest)
          = Some (pre, str "utf-8?q?" ++ qString c ++ closeWord ++ rest)) as ->.
  { change (pre ++ openWord ++ qString c ++ closeWord ++ rest) with (pre ++ 61 :: 63 :: (str "utf-8?q?" ++ qString c ++ closeWord ++ rest)).
    apply cut2_none_app. destruct P as [->| ->]; [intros []|intros [I|[]]; discriminate]. }
  change (str "utf-8?q?" ++ qString c ++ closeWord ++ rest) with (str "utf-8" ++ 63 :: (113 :: 63 :: qString c ++ closeWord ++ rest)).
  rewrite cut1_app by (intros I; cbn in I; repeat (destruct I as [I|I]; [discriminate|]); exact I).
  assert (lenN (113 :: 63 :: qString c ++ closeWord ++ rest) <? 4 = false) as ->.
  { rewrite !lenN_cons, !lenN_app. change (lenN closeWord) with 2. lia. }
  change (63 =? 63) with true. cbn [negb orb].
  change (qString c ++ closeWord ++ rest) with (qString c ++ 63 :: 61 :: rest).
  rewrite cut2_none_app by (intros I; apply qString_chars in I as [I _]; [apply I; reflexivity|exact W]).
  change (decodeWord 113 (qString c)) with (qDecode (qString c)). rewrite qDecode_string by exact W. reflexivity.
Qed.
Lemma decLoop_words cs : forall f, Forall wfb cs -> (List.length cs <= f)%nat ->
  forall c, wfb c -> forall between, decLoop (S f) between (openWord ++ qString c ++ concat (map laterWord cs) ++ closeWord) = Ok (c ++ concat cs).
Proof.
  induction cs as [|d cs IH]; intros f F L c W between.
  - cbn [map concat app]. pose proof (decLoop_word f between [] c [] W (or_introl eq_refl)) as D.
    cbn [app] in D. rewrite app_nil_r in D. rewrite D.
    assert (decLoop f true [] = Ok []) as -> by (destruct f; reflexivity). cbn [rbind].
    destruct (between && blank []); rewrite app_nil_r; reflexivity.
  - destruct f as [|f]; [cbn in L; lia|].
    pose proof (decLoop_word (S f) between [] c ([32] ++ openWord ++ qString d ++ concat (map laterWord cs) ++ closeWord) W (or_introl eq_refl)) as D.
    assert (openWord ++ qString c ++ concat (map laterWord (d :: cs)) ++ closeWord
            = [] ++ openWord ++ qString c ++ closeWord ++ [32] ++ openWord ++ qString d ++ concat (map laterWord cs) ++ closeWord) as E.
    { cbn [map concat]. unfold laterWord at 1. rewrite <- !app_assoc. reflexivity. }
    rewrite E, D. clear D E.
    (* the blank before the word is dropped *)
    assert (forall g, decLoop (S g) true ([32] ++ openWord ++ qString d ++ concat (map laterWord cs) ++ closeWord)
            = decLoop (S g) true (openWord ++ qString d ++ concat (map laterWord cs) ++ closeWord)) as B.
    { intros g. destruct cs as [|d2 cs2].
      - cbn [map concat]. rewrite (app_nil_l closeWord).
        pose proof (decLoop_word g true [32] d [] (Forall_inv F) (or_intror eq_refl)) as D1. pose proof (decLoop_word g true [] d [] (Forall_inv F) (or_introl eq_refl)) as D2.
        rewrite app_nil_r in D1, D2. change ([] ++ openWord ++ qString d ++ closeWord) with (openWord ++ qString d ++ closeWord) in D2.
        rewrite D1, D2. reflexivity.
      - cbn [map concat]. unfold laterWord at 1 3. rewrite <- !app_assoc.
        set (rest := [32] ++ openWord ++ qString d2 ++ concat (map laterWord cs2) ++ closeWord).
        pose proof (decLoop_word g true [32] d rest (Forall_inv F) (or_intror eq_refl)) as D1. pose proof (decLoop_word g true [] d rest (Forall_inv F) (or_introl eq_refl)) as D2.
        change ([] ++ openWord ++ qString d ++ closeWord ++ rest) with (openWord ++ qString d ++ closeWord ++ rest) in D2. rewrite D1, D2. reflexivity. }
    rewrite B. rewrite (IH f (Forall_inv_tail F)) by (try (cbn in L; lia); exact (Forall_inv F)). cbn [rbind].
    destruct (between && blank []); reflexivity.
Qed.
Lemma wfb_concat_inv (cs : list bytes) : wfb (concat cs) -> Forall wfb cs.
Proof.
  induction cs as [|c cs IH]; intros W; [constructor|]. cbn [concat] in W. apply wfb_app in W as [A B]. constructor; [exact A|apply IH; exact B].
Qed.
Lemma length_laterWords cs : (List.length cs <= List.length (concat (map laterWord cs)))%nat.
Proof.
  induction cs as [|c cs IH]; [cbn; lia|]. cbn [map concat]. rewrite app_length. unfold laterWord at 1. rewrite app_length. cbn [List.length].
  change (List.length closeWord) with 2%nat. lia.
Qed.
Lemma decode_qEncode mx s : wfb s -> needsEncoding s = true -> decodeHeader (qEncode mx s) = Ok s.
Proof.
  intros W NE. unfold qEncode. rewrite NE. destruct (qLoop_words (List.length s) mx 0 s (le_n _)) as (c & cs & E & ->).
  rewrite E in W. apply wfb_app in W as [Wc Wcs]. apply wfb_concat_inv in Wcs. rewrite <- app_assoc.
  unfold decodeHeader. set (t := openWord ++ qString c ++ concat (map laterWord cs) ++ closeWord).
  assert (exists f, List.length t = S f /\ (List.length cs <= f)%nat) as (f & -> & L).
  { exists (Nat.pred (List.length t)). pose proof (length_laterWords cs) as LW.
    assert (List.length t = 10 + (List.length (qString c) + (List.length (concat (map laterWord cs)) + 2)))%nat as -> by (unfold t; rewrite !app_length; reflexivity). change (@List.length bytes cs) with (@List.length (list N) cs) in LW. lia. }
  unfold t. rewrite decLoop_words by assumption. rewrite E. reflexivity.
Qed.
Lemma cut2_none a b (s : bytes) : (forall u v, s <> u ++ a :: b :: v) -> cut2 a b s = None.
Proof.
  induction s as [|x s IH]; intros H; [reflexivity|]. cbn [cut2]. destruct s as [|y s]; [reflexivity|].
  destruct ((x =? a) && (y =? b)) eqn:E.
  - apply andb_true_iff in E as [E1 E2]. apply N.eqb_eq in E1 as ->. apply N.eqb_eq in E2 as ->. elim (H [] s). reflexivity.
  - rewrite IH; [reflexivity|]. intros u v Q. apply (H (x :: u) v). rewrite Q. reflexivity.
Qed.
Lemma decodeHeader_plain s : (forall u v, s <> u ++ 61 :: 63 :: v) -> decodeHeader s = Ok s.
Proof. intros H. unfold decodeHeader. destruct (List.length s); [reflexivity|]. cbn [decLoop]. rewrite cut2_none by exact H. reflexivity. Qed.
Lemma qEncode_clean mx s : wfb s -> s <> [] -> needsEncoding s = true -> clean (qEncode mx s) = true /\ qEncode mx s <> [].
Proof.
  intros W NN NE. unfold qEncode. rewrite NE. destruct (qLoop_words (List.length s) mx 0 s (le_n _)) as (c & cs & E & ->).
  split; [|discriminate]. rewrite E in W. apply wfb_app in W as [Wc Wcs]. apply wfb_concat_inv in Wcs.
  unfold clean. apply andb_true_iff. split.
  - rewrite !forallb_app_iff. split; [reflexivity|]. split; [|reflexivity]. split.
    + apply forallb_forall. intros x I. apply qString_chars in I as [_ I]; [|exact Wc]. unfold is_nl. lia.
    + apply forallb_forall. intros x I. apply in_concat in I as (w & Iw & Ix). apply in_map_iff in Iw as (d & <- & Id).
      unfold laterWord in Ix. rewrite Forall_forall in Wcs. apply in_app_or in Ix as [Ix|Ix]; [destruct Ix as [<-|[<-|[]]]; reflexivity|].
      apply in_app_or in Ix as [[<-|[]]|Ix]; [reflexivity|].
      apply in_app_or in Ix as [Ix|Ix]; [cbn in Ix; repeat (destruct Ix as [<-|Ix]; [reflexivity|]); destruct Ix|].
      apply qString_chars in Ix as [_ Ix]; [|apply Wcs; exact Id]. unfold is_nl. lia.
  - change (openWord ++ ?x) with (61 :: (str "?utf-8?q?" ++ x)). cbn iota.
    change (61 :: (str "?utf-8?q?" ++ ?x)) with (openWord ++ x).
    rewrite app_assoc, last_app by discriminate. reflexivity.
Qed.

(* ---- media types ---- *)
Lemma token_app t r : forallb isTok t = true -> match r with [] => True | c :: _ => isTok c = false end -> token (t ++ r) = (t, r).
Proof.
  induction t as [|c t IH]; intros H R.
  - destruct r as [|c r]; [reflexivity|]. cbn [app token]. rewrite R. reflexivity.
  - cbn [forallb] in H. apply andb_true_iff in H as [A B]. cbn [app token]. rewrite A, (IH B R). reflexivity.
Qed.
Lemma isTok_plain c : isTok c = true -> isSp c = false /\ (c =? 34) = false /\ (c =? 59) = false /\ 33 <= c <= 126.
Proof.
  unfold isTok. intros H. apply andb_true_iff in H as [H E]. apply negb_true_iff in E.
  assert (forall x, In x (str "()<>@,;:\/[]?=" ++ [34]) -> c <> x) as NI.
  { intros x I ->. enough (existsb (N.eqb x) (str "()<>@,;:\/[]?=" ++ [34]) = true) by congruence. apply existsb_exists. exists x. split; [exact I|apply N.eqb_refl]. }
  assert (c <> 34 /\ c <> 59) as [A B] by (split; apply NI; cbn; auto 20). unfold isSp. repeat split; lia.
Qed.
Lemma skipSp_id s : match s with [] => True | c :: _ => isSp c = false end -> skipSp s = s.
Proof. destruct s as [|c s]; [reflexivity|]. cbn [skipSp]. intros ->. reflexivity. Qed.
Definition paramEnd (r : bytes) : Prop := match r with [] => True | c :: _ => c = 59 end.
Lemma paramEnd_tok r : paramEnd r -> match r with [] => True | c :: _ => isTok c = false end.
Proof. destruct r as [|c r]; [auto|]. intros ->. reflexivity. Qed.
Lemma consumeValue_tok t r : t <> [] -> forallb isTok t = true -> paramEnd r -> consumeValue (t ++ r) = (t, r).
Proof.
  intros T TT R. assert (consumeValue (t ++ r) = token (t ++ r)) as ->.
  { destruct t as [|c t]; [elim T; reflexivity|]. cbn [app consumeValue]. cbn [forallb] in TT. apply andb_true_iff in TT as [A _].
    apply isTok_plain in A as (_ & A & _). destruct c as [|p]; [reflexivity|]. do 6 (destruct p as [p|p|]; try reflexivity). discriminate. }
  apply token_app; [exact TT|apply paramEnd_tok; exact R].
Qed.
Lemma mediaParam_gen k x value r : k <> [] -> forallb isTok k = true -> match x with [] => True | c :: _ => isSp c = false end ->
  consumeValue x = (value, r) -> value <> [] ->
  mediaParam (str "; " ++ k ++ 61 :: x) = Some (map lowerB k, value, r).
Proof.
  intros K KT X CV V. unfold mediaParam. change (skipSp (str "; " ++ k ++ 61 :: x)) with (59 :: 32 :: k ++ 61 :: x). cbn iota.
  change (skipSp (32 :: k ++ 61 :: x)) with (skipSp (k ++ 61 :: x)).
  rewrite (skipSp_id (k ++ 61 :: x)) by (destruct k as [|c k]; [elim K; reflexivity|]; cbn [forallb] in KT; apply andb_true_iff in KT as [A _]; apply (isTok_plain c A)).
  rewrite token_app by (try exact KT; reflexivity). destruct (beq k []) eqn:B; [apply beq_spec in B; contradiction|].
  change (skipSp (61 :: x)) with (61 :: x). cbn iota. rewrite skipSp_id by exact X. rewrite CV.
  destruct (beq value []) eqn:B2; [apply beq_spec in B2; contradiction|]. reflexivity.
Qed.
Lemma mediaParam_tok k v r : k <> [] -> forallb isTok k = true -> v <> [] -> forallb isTok v = true -> paramEnd r ->
  mediaParam (str "; " ++ k ++ 61 :: v ++ r) = Some (map lowerB k, v, r).
Proof.
  intros K KT V VT R. apply mediaParam_gen; [exact K|exact KT| |apply consumeValue_tok; assumption|exact V].
  destruct v as [|c v]; [elim V; reflexivity|]. cbn [forallb] in VT. apply andb_true_iff in VT as [A _]. apply (isTok_plain c A).
Qed.
Lemma quoted_quote v r : printable v = true -> quoted false (concat (map quoteByte v) ++ 34 :: r) = Some (v, r).
Proof.
  induction v as [|c v IH]; intros P; [reflexivity|]. cbn [printable forallb] in P. apply andb_true_iff in P as [A B].
  cbn [map concat]. unfold quoteByte at 1. destruct ((c =? 34) || (c =? 92)) eqn:Q.
  - cbn [app quoted]. change (92 =? 34) with false. change (92 =? 92) with true. cbn iota. cbn [quoted]. rewrite (IH B). reflexivity.
  - cbn [app quoted]. apply orb_false_iff in Q as [-> ->]. replace (is_nl c) with false by (unfold is_nl; lia). rewrite (IH B). reflexivity.
Qed.
Lemma mediaParam_quoted L k v r : k <> [] -> forallb isTok k = true -> v <> [] -> printable v = true ->
  mediaParam (str "; " ++ k ++ 61 :: goQuote L v ++ r) = Some (map lowerB k, v, r).
Proof.
  intros K KT V P. apply mediaParam_gen; [exact K|exact KT| | |exact V]; unfold goQuote; rewrite P; [reflexivity|].
  rewrite <- !app_assoc. change ([34] ++ concat (map quoteByte v) ++ [34] ++ r) with (34 :: (concat (map quoteByte v) ++ 34 :: r)).
  cbn [consumeValue]. rewrite quoted_quote by exact P. reflexivity.
Qed.
Lemma params_step f acc k v x r : mediaParam (str "; " ++ x) = Some (k, v, r) -> existsb (fun p => beq (fst p) k) acc = false ->
  params (S f) acc (str "; " ++ x) = params f (acc ++ [(k, v)]) r.
Proof.
  intros M D. cbn [params]. change (skipSp (str "; " ++ x)) with (str "; " ++ x).
  destruct (str "; " ++ x) as [|c s] eqn:E; [discriminate|]. rewrite M, D. reflexivity.
Qed.
Lemma params_done f acc : params f acc [] = Ok acc.
Proof. destruct f; reflexivity. Qed.
Lemma parseMediaType_params a x mt : ~ In 59 a -> trimSp (map lowerB a) = mt -> mediaTypeOk mt = true ->
  parseMediaType (a ++ str "; " ++ x) = (do ps <- params (S (List.length (str "; " ++ x))) [] (str "; " ++ x); Ok (mt, ps)).
Proof.
  intros A T M. unfold parseMediaType. change (str "; " ++ x) with (59 :: (32 :: x)). rewrite cut1_app by exact A. cbv zeta. rewrite T, M. reflexivity.
Qed.
(* hexadecimal text *)
Lemma hexenc_chars rnd c : wfb rnd -> In c (hexenc rnd) -> 48 <= c <= 57 \/ 97 <= c <= 102.
Proof.
  induction 1 as [|x r H W IH]; cbn [hexenc]; [intros []|]. intros [<-|[<-|I]]; [apply hexchar_cases|apply hexchar_cases|auto].
  - apply N.div_lt_upper_bound; lia.
  - apply N.mod_lt; lia.
Qed.
Lemma isTok_alnum c : isAlnum c = true -> isTok c = true.
Proof.
  unfold isAlnum, isTok. intros H. rewrite !andb_true_iff. split; [split; lia|]. apply negb_true_iff.
  assert (forall l, forallb (fun x => negb (isAlnum x)) l = true -> existsb (N.eqb c) l = false) as G.
  { intros l. induction l as [|x l IH]; [reflexivity|]. cbn [forallb existsb]. intros F. apply andb_true_iff in F as [A B]. rewrite (IH B).
    destruct (N.eqb_spec c x) as [<-|_]; [|reflexivity]. exfalso. apply negb_true_iff in A. unfold isAlnum in A. congruence. }
  apply G. reflexivity.
Qed.
Lemma hexenc_tok rnd : wfb rnd -> forallb isTok (hexenc rnd) = true.
Proof.
  intros W. apply forallb_forall. intros c I. apply isTok_alnum. apply hexenc_chars in I; [|exact W]. unfold isAlnum. lia.
Qed.
Lemma hexenc_not rnd c : wfb rnd -> c < 48 -> ~ In c (hexenc rnd).
Proof. intros W C I. apply hexenc_chars in I; [lia|exact W]. Qed.
Lemma hexenc_nonnil rnd : rnd <> [] -> hexenc rnd <> [].
Proof. destruct rnd; [intros H; elim H; reflexivity|discriminate]. Qed.
Lemma media_boundary rnd : wfb rnd -> rnd <> [] ->
  parseMediaType (str "multipart/mixed; boundary=" ++ hexenc rnd) = Ok (str "multipart/mixed", [(str "boundary", hexenc rnd)]).
Proof.
  intros W N. change (str "multipart/mixed; boundary=" ++ hexenc rnd) with (str "multipart/mixed" ++ str "; " ++ str "boundary" ++ 61 :: hexenc rnd).
  rewrite (parseMediaType_params _ _ (str "multipart/mixed"));
    [|intros I; cbn in I; repeat (destruct I as [I|I]; [discriminate|]); exact I|reflexivity|reflexivity].
  rewrite (params_step _ [] (str "boundary") (hexenc rnd) _ []); [rewrite params_done; reflexivity| |reflexivity].
  pose proof (mediaParam_tok (str "boundary") (hexenc rnd) []) as M. rewrite app_nil_r in M.
  apply M; [discriminate|reflexivity|apply hexenc_nonnil; exact N|apply hexenc_tok; exact W|exact I].
Qed.

(* ---- multipart bodies ---- *)
Lemma starts_app p s : starts p (p ++ s) = Some s.
Proof. induction p as [|x p IH]; [reflexivity|]. cbn [app starts]. rewrite N.eqb_refl. exact IH. Qed.
Lemma starts_inv p : forall s r, starts p s = Some r -> s = p ++ r.
Proof.
  induction p as [|x p IH]; intros s r E; cbn [starts] in E; [injection E as ->; reflexivity|].
  destruct s as [|y s]; [discriminate|]. destruct (N.eqb_spec x y) as [->|_]; [|discriminate]. cbn [app]. f_equal. apply IH. exact E.
Qed.
(* a pattern without CR that starts the text before a CR is a prefix of that text *)
Lemma starts_before p : forall c s r, ~ In 13 p -> starts p (c ++ 13 :: s) = Some r -> exists v, c = p ++ v.
Proof.
  induction p as [|x p IH]; intros c s r NI E; [exists c; reflexivity|]. destruct c as [|y c]; cbn [app starts] in E.
  - destruct (N.eqb_spec x 13) as [->|_]; [elim NI; left; reflexivity|discriminate].
  - destruct (N.eqb_spec x y) as [->|_]; [|discriminate].
    destruct (IH c s r ltac:(intros I; apply NI; right; exact I) E) as (v & ->). exists v. reflexivity.
Qed.
Lemma starts_prefix_none p c : (forall v, c <> p ++ v) -> starts p c = None.
Proof. intros H. destruct (starts p c) as [r|] eqn:E; [|reflexivity]. apply starts_inv in E. elim (H _ E). Qed.
Definition free (b c : bytes) : Prop := forall u v, c <> u ++ dashes b ++ v.
Lemma free_tail b x c : free b (x :: c) -> free b c.
Proof. intros F u v E. apply (F (x :: u) v). rewrite E. reflexivity. Qed.
Lemma scan_eq p s : scan p s = if boundaryAt p s then Some ([], s)
  else match s with [] => None | c :: s' => match scan p s' with Some (a, t) => Some (c :: a, t) | None => None end end.
Proof. destruct s; reflexivity. Qed.
Lemma scan_found b x : ~ In 13 b -> afterOk x = true -> forall c, free b c -> scan (CRLF ++ dashes b) (c ++ CRLF ++ dashes b ++ x) = Some (c, CRLF ++ dashes b ++ x).
Proof.
  intros NB X. induction c as [|y c IH]; intros F; rewrite scan_eq.
  - rewrite app_nil_l, app_assoc. unfold boundaryAt. rewrite starts_app, X. reflexivity.
  - assert (boundaryAt (CRLF ++ dashes b) ((y :: c) ++ CRLF ++ dashes b ++ x) = false) as ->.
    { unfold boundaryAt. destruct (starts (CRLF ++ dashes b) ((y :: c) ++ CRLF ++ dashes b ++ x)) as [r|] eqn:E; [|reflexivity].
      change (starts (13 :: ([10] ++ dashes b)) (y :: (c ++ 13 :: ([10] ++ dashes b ++ x))) = Some r) in E.
      change ((if 13 =? y then starts ([10] ++ dashes b) (c ++ 13 :: ([10] ++ dashes b ++ x)) else None) = Some r) in E.
      destruct (13 =? y); [|discriminate].
      apply starts_before in E as (v & ->); [|intros [I|[I|[I|I]]]; [discriminate|discriminate|discriminate|exact (NB I)]].
      elim (F [y; 10] v). reflexivity. }
    change ((y :: c) ++ CRLF ++ dashes b ++ x) with (y :: (c ++ CRLF ++ dashes b ++ x)). cbn iota.
    rewrite (IH (free_tail _ _ _ F)). reflexivity.
Qed.
Lemma readPart_found b c x : ~ In 13 b -> afterOk x = true -> free b c ->
  readPart false b (c ++ CRLF ++ dashes b ++ x) = Some (c, CRLF ++ dashes b ++ x).
Proof.
  intros NB X F. unfold readPart. assert (boundaryAt (dashes b) (c ++ CRLF ++ dashes b ++ x) = false) as ->.
  { unfold boundaryAt. destruct (starts (dashes b) (c ++ CRLF ++ dashes b ++ x)) as [r|] eqn:E; [|reflexivity].
    change (c ++ CRLF ++ dashes b ++ x) with (c ++ 13 :: (10 :: dashes b ++ x)) in E.
    apply starts_before in E as (v & ->); [|intros [I|[I|I]]; [discriminate|discriminate|exact (NB I)]]. elim (F [] v). reflexivity. }
  apply scan_found; assumption.
Qed.
Lemma scan_none p s : (forall u v, s <> u ++ p ++ v) -> scan p s = None.
Proof.
  induction s as [|c s IH]; intros H; cbn [scan]; unfold boundaryAt; rewrite starts_prefix_none by (intros v E; exact (H [] v E)); [reflexivity|].
  rewrite IH; [reflexivity|]. intros u v E. apply (H (c :: u) v). rewrite E. reflexivity.
Qed.
Lemma readPart_none b c : free b c -> readPart false b c = None.
Proof.
  intros F. unfold readPart, boundaryAt. rewrite starts_prefix_none by (intros v E; exact (F [] v E)).
  apply scan_none. intros u v E. apply (F (u ++ CRLF) v). rewrite E. unfold nl. rewrite <- !app_assoc. reflexivity.
Qed.
Lemma b64enc_no45 d : ~ In 45 (b64enc d).
Proof.
  assert (forall n, b64char n <> 45) as C by (intros n; pose proof (b64char_cases n); lia).
  induction d as [|x|x y|x y z d IH] using list_ind3; cbn [b64enc In]; unfold padchar; intros I;
    repeat (destruct I as [I|I]; [try exact (C _ I); try discriminate I|]); try exact I. exact (IH I).
Qed.
Lemma free_no45 b c : ~ In 45 c -> free b c.
Proof. intros H u v E. apply H. rewrite E. apply in_or_app. right. left. reflexivity. Qed.

(* part headers in any order *)
Definition ordFields (ord : list bytes) (h : list (bytes * bytes)) : list (bytes * bytes) := flat_map (fun k => map (pair k) (hvalues k h)) ord.
Lemma createPart_lines b first ord h : createPart b first ord h = (if first then [] else CRLF) ++ dashes b ++ CRLF ++ lines (ordFields ord h) ++ CRLF.
Proof.
  unfold createPart. f_equal. f_equal. f_equal. f_equal. unfold lines, ordFields. induction ord as [|k ord IH]; [reflexivity|].
  cbn [map concat flat_map]. rewrite map_app, concat_app, IH. f_equal. rewrite map_map. reflexivity.
Qed.
Lemma hvalues_pair k k' (l : list bytes) : hvalues k (map (pair k') l) = if beq k' k then l else [].
Proof.
  unfold hvalues. destruct (beq k' k) eqn:E; induction l as [|x l IH]; cbn [map filter fst]; try rewrite E; [reflexivity| |reflexivity|exact IH].
  cbn [map snd]. f_equal. exact IH.
Qed.
Lemma hvalues_app k a b : hvalues k (a ++ b) = hvalues k a ++ hvalues k b.
Proof. unfold hvalues. rewrite filter_app, map_app. reflexivity. Qed.
Lemma hvalues_ord k h ord : NoDup ord -> In k ord -> hvalues k (ordFields ord h) = hvalues k h.
Proof.
  assert (forall ord', ~ In k ord' -> hvalues k (ordFields ord' h) = []) as Z.
  { intros o. induction o as [|x o IH]; intros H; [reflexivity|]. unfold ordFields. cbn [flat_map]. fold (ordFields o h).
    rewrite hvalues_app, hvalues_pair, IH by (intros I; apply H; right; exact I).
    destruct (beq x k) eqn:E; [apply beq_spec in E as ->; elim H; left; reflexivity|reflexivity]. }
  induction ord as [|x o IH]; intros ND I; [destruct I|]. apply NoDup_cons_iff in ND as [NI ND].
  unfold ordFields. cbn [flat_map]. fold (ordFields o h). rewrite hvalues_app, hvalues_pair.
  destruct (beq x k) eqn:E.
  - apply beq_spec in E as ->. rewrite Z by exact NI. apply app_nil_r.
  - destruct I as [->|I]; [rewrite beq_refl in E; discriminate|]. apply IH; assumption.
Qed.
(* canonical keys are not changed by reading *)
Definition canonical (p : bytes * bytes) : Prop := canon (fst p) = fst p.
Lemma read_canonical fs body : Forall goodField fs -> Forall canonical fs -> readHdr (lines fs ++ CRLF ++ body) = Ok (fs, body).
Proof.
  intros G C. rewrite readHdr_lines by exact G. f_equal. f_equal. clear G. induction C as [|[k v] fs E C IH]; [reflexivity|].
  cbn [map fst snd]. unfold canonical in E. cbn [fst] in E. rewrite E, IH. reflexivity.
Qed.
Lemma ordFields_in p ord h : In p (ordFields ord h) -> In p h.
Proof.
  unfold ordFields. intros I. apply in_flat_map in I as (k & _ & I). apply in_map_iff in I as (v & <- & I).
  unfold hvalues in I. apply in_map_iff in I as ([k' v'] & <- & I). apply filter_In in I as [I E]. cbn [fst] in E. apply beq_spec in E as ->. exact I.
Qed.
Lemma Forall_ordFields (P : bytes * bytes -> Prop) ord h : Forall P h -> Forall P (ordFields ord h).
Proof. rewrite !Forall_forall. intros H p I. apply H. eapply ordFields_in; exact I. Qed.

(* the reader at a delimiter line *)
Lemma trim_left_crlf (s : bytes) : trim_left (CRLF ++ s) = CRLF ++ s.
Proof. reflexivity. Qed.
Lemma isDelim_line parts b : isDelim parts false b (dashes b ++ CRLF) = (true, false).
Proof. unfold isDelim. rewrite starts_app. cbn [trim_left CRLF]. change (is_wsp 13) with false. cbn iota. destruct parts; reflexivity. Qed.
Lemma nextLoop_delim f b expect parts s h rest : no_nl b ->
  readHdr s = Ok (h, rest) -> nextLoop (S f) b expect (mkMR (dashes b ++ CRLF ++ s) parts false) = NPart h (mkMR rest true false).
Proof.
  intros NB R. cbn [nextLoop mrS mrParts mrLF]. rewrite cut_nl_crlf by (apply no_nl_app; split; [reflexivity|exact NB]).
  rewrite <- app_assoc. change ([13] ++ [10]) with CRLF. rewrite isDelim_line, R. reflexivity.
Qed.
Lemma nextPart_first b s h rest : no_nl b -> readHdr s = Ok (h, rest) ->
  nextPart b (mkMR (dashes b ++ CRLF ++ s) false false) = NPart h (mkMR rest true false).
Proof. intros NB R. unfold nextPart. apply nextLoop_delim; assumption. Qed.
(* the empty line before a delimiter *)
Lemma nextLoop_empty f b t : nextLoop (S f) b false (mkMR (CRLF ++ t) true false) = nextLoop f b true (mkMR t true false).
Proof. cbn [nextLoop mrS mrParts mrLF CRLF app cut_nl]. change (13 =? 10) with false. change (10 =? 10) with true. cbn iota. reflexivity. Qed.
Lemma nextPart_more b s h rest : no_nl b -> readHdr s = Ok (h, rest) ->
  nextPart b (mkMR (CRLF ++ dashes b ++ CRLF ++ s) true false) = NPart h (mkMR rest true false).
Proof.
  intros NB R. unfold nextPart. cbn [mrS]. rewrite nextLoop_empty. change (List.length (CRLF ++ dashes b ++ CRLF ++ s)) with (S (S (List.length (dashes b ++ CRLF ++ s)))).
  apply nextLoop_delim; assumption.
Qed.
Lemma nextPart_end b : no_nl b -> nextPart b (mkMR (closeParts b) true false) = NEof.
Proof.
  intros NB. unfold nextPart, closeParts. cbn [mrS]. rewrite nextLoop_empty.
  change (List.length (CRLF ++ dashes b ++ [45; 45] ++ CRLF)) with (S (S (List.length (dashes b ++ [45; 45] ++ CRLF)))).
  cbn [nextLoop mrS mrParts mrLF].
  pose proof (cut_nl_crlf (dashes b ++ [45; 45]) []) as C. rewrite app_nil_r, <- app_assoc in C.
  rewrite C by (rewrite !no_nl_app; repeat split; try reflexivity; exact NB).
  replace ((dashes b ++ [45; 45]) ++ [13]) with (dashes b ++ [45; 45; 13]) by (rewrite <- app_assoc; reflexivity).
  rewrite <- app_assoc. cbn [app]. unfold isDelim. rewrite starts_app. change (trim_left [45; 45; 13; 10]) with [45; 45; 13; 10].
  cbn [negb andb]. change (beq [45; 45; 13; 10] (nl false)) with false. cbn iota.
  unfold isFinal. replace (dashes b ++ [45; 45; 13; 10]) with ((dashes b ++ [45; 45]) ++ CRLF) by (rewrite <- app_assoc; reflexivity).
  rewrite starts_app. reflexivity.
Qed.
