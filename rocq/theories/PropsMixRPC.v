(* C191-C194: the host of a mix, the revocation of messages, the deletion and the expiry of accounts, the times of listed messages. *)
From Verif Require Import Base Base64Model Base64Proofs CodecModel CodecProofs JsonModel GuardModel MixModel MixClientModel PipeModel PipeProofs MixRPCModel.
Delimit Scope string_scope with string.
Local Open Scope N_scope.

(* ---- specification ---- *)
(* an error that reports a replay *)
Definition replay (t : bytes) : Prop := exists s z, t = str "ErrReplay: " ++ s /\ parseInt s = Some z.
(* the k-th request is the last one and is answered with [data]; those before it were refused as replays *)
Definition answered (ans : nat -> netAns) (k : nat) (data : list (bytes * json)) : Prop :=
  (forall j, (j < k)%nat -> exists t, ans j = NErr t /\ replay t) /\ ans k = NData data.
(* the records of a domain with the lowest preference *)
Definition primary (mx : list (N * bytes)) (h : bytes) : Prop := exists p, In (p, h) mx /\ forall q g, In (q, g) mx -> p <= q.
(* hosts as DNS gives them: with a dot at the end *)
Definition absolute (mx : list (N * bytes)) : Prop := forall p h, In (p, h) mx -> exists n, h = n ++ [46].
(* a message as the account server lists it *)
Definition listed (m : msgMeta) : json :=
  JObj [(str "MessageID", JStr (hexenc (mmID m))); (str "ReadTime", JNum (formatInt (mmRead m))); (str "ReceiveTime", JNum (formatInt (mmTime m)));
        (str "ReceiveTimeNano", JNum (formatInt (mmNano m))); (str "UserKey", JStr (hexenc (mmKey m)))].
Definition int64 (z : Z) : Prop := (- 2 ^ 63 <= z < 2 ^ 63)%Z.
Definition small (z : Z) : Prop := (- 2 ^ 53 < z < 2 ^ 53)%Z.
Definition wfMeta (m : msgMeta) : Prop := wfb (mmID m) /\ wfb (mmKey m) /\ lenN (mmKey m) = 32 /\ small (mmTime m) /\ small (mmRead m) /\ int64 (mmNano m).

(* ---- C191 ---- *)
(* Full statement: a message is reported as revoked exactly if the mix answered REVOKED to a request with its identifier.  Missing: the
   answer needs something after this word. *)
Theorem C191_partial get a id b : revokeMessage get (Ok a) id = Ok b <-> b = true /\ exists x r, get (str "https://" ++ a ++ str "/revoke?revokeid=" ++ hexenc id) = Some (str "REVOKED" ++ x :: r).
Proof.
  fold (revokeURL a id). unfold revokeMessage. cbn [rbind]. destruct (get (revokeURL a id)) as [body|]; [|split; [discriminate|intros (_ & x & r & H); discriminate H]].
  destruct (N.ltb_spec 7 (lenN body)) as [L|L].
  - destruct (beq (takeN 7 body) (str "REVOKED")) eqn:E.
    + apply beq_spec in E. split.
      * intros H. split; [congruence|]. pose proof (takeN_dropN 7 body) as T. rewrite E in T. rewrite <- T in L |- *.
        destruct (dropN 7 body) as [|x r]; [rewrite app_nil_r in L; vm_compute in L; discriminate L|]. exists x, r. reflexivity.
      * intros (-> & _). reflexivity.
    + assert (N0 : ~ exists x r, body = str "REVOKED" ++ x :: r).
      { intros (x & r & ->). rewrite takeN_app in E by reflexivity. rewrite beq_refl in E. discriminate E. }
      split; [|intros (_ & x & r & H); exfalso; apply N0; exists x, r; congruence].
      destruct (beq (takeN 5 body) (str "ERROR")); intros H; discriminate H.
  - split; [discriminate|]. intros (_ & x & r & H). apply (f_equal (fun o => match o with Some b => lenN b | None => 0 end)) in H.
    rewrite lenN_app, lenN_cons in H. change (lenN (str "REVOKED")) with 7 in H. lia.
Qed.
(* The request names the message: requests to a mix differ if the identifiers differ. *)
Theorem C191_id a id id' : wfb id -> wfb id' -> revokeURL a id = revokeURL a id' -> id = id'.
Proof.
  intros W W' E. unfold revokeURL in E. do 3 apply app_inv_head in E.
  pose proof (hexdec_enc id W) as A. pose proof (hexdec_enc id' W') as B. rewrite E in A. congruence.
Qed.
(* The answer REVOKED alone is taken for a protocol error. *)
Theorem C191_refuted : exists get a id, get (revokeURL a id) = Some (str "REVOKED") /\ revokeMessage get (Ok a) id = Err "mixclient: bad RPC protocol".
Proof. exists (fun _ => Some (str "REVOKED")), (str "mix.mute.berlin:2080"), [1; 2]. split; vm_compute; reflexivity. Qed.
Example C191_ex : revokeMessage (fun u => if beq u (str "https://mix.mute.berlin:2080/revoke?revokeid=0102") then Some (str "REVOKED 0102") else Some (str "ERROR: unknown"))
    (Ok (str "mix.mute.berlin:2080")) [1; 2] = Ok true
  /\ revokeMessage (fun u => Some (str "ERROR: unknown")) (Ok (str "mix.mute.berlin:2080")) [1; 2] = Err "the answer".
Proof. split; vm_compute; reflexivity. Qed.

(* ---- C192 ---- *)
Lemma splitAt_app l d : ~ In 64 l -> splitAt (l ++ 64 :: d) = Some (l, d).
Proof.
  induction l as [|c l IH]; intros H; cbn [splitAt app]; [reflexivity|].
  replace (c =? 64) with false by (symmetry; apply N.eqb_neq; intros ->; apply H; left; reflexivity).
  rewrite IH by (intros I; apply H; right; exact I). reflexivity.
Qed.
Lemma domain_plain parse addr l d : parse addr = Some (l, d) -> ~ In 64 l -> l <> [] -> 2 <= lenN d -> getMailDomain parse addr = d.
Proof.
  intros P A L D. unfold getMailDomain. rewrite P, splitAt_app by exact A.
  destruct l as [|c l]; [destruct L; reflexivity|]. rewrite lenN_cons.
  replace (0 <? 1 + lenN l) with true by lia. replace (1 + lenN l + 2 <? 1 + lenN l + 1 + lenN d) with true by lia. reflexivity.
Qed.
(* Full statement: the mix is asked at the primary mail host of the domain of its address, at the configured port.  For addresses whose local
   part has no at sign it is asked at one of the mail hosts, each of which may be chosen, and so at the primary one if all have the same preference. *)
Theorem C192_partial parse dns rnd addr l d mx : parse addr = Some (l, d) -> ~ In 64 l -> l <> [] -> 2 <= lenN d ->
  dns d = Some mx -> mx <> [] -> absolute mx ->
  exists p h, In (p, h ++ [46]) mx /\ getMixAddress parse dns rnd addr = match h with [] => Err "mixclient: no RPC host found" | _ => Ok (h ++ str ":2080") end.
Proof.
  intros P A L D M Mn Ab. unfold getMixAddress. rewrite (domain_plain _ _ _ _ P A L D). unfold lookupMX.
  destruct d as [|d0 d']; [vm_compute in D; destruct D; reflexivity|]. rewrite M. destruct mx as [|m0 mx']; [destruct Mn; reflexivity|].
  set (mx := m0 :: mx') in *. assert (I : In (nth (N.to_nat (rnd mod lenN mx)) mx (0, [])) mx).
  { apply nth_In. assert (rnd mod lenN mx < lenN mx) by (apply N.mod_lt; unfold mx; rewrite lenN_cons; lia). unfold lenN in H at 2. lia. }
  destruct (nth (N.to_nat (rnd mod lenN mx)) mx (0, [])) as [p h]. destruct (Ab p h I) as [n ->]. exists p, n. split; [exact I|].
  cbn [snd]. destruct (n ++ [46]) as [|x y] eqn:E; [destruct n; discriminate E|]. rewrite <- E. rewrite removelast_last. reflexivity.
Qed.
Theorem C192_equal parse dns rnd addr l d mx p0 : parse addr = Some (l, d) -> ~ In 64 l -> l <> [] -> 2 <= lenN d ->
  dns d = Some mx -> mx <> [] -> absolute mx -> (forall p h, In (p, h) mx -> p = p0 /\ h <> [46]) ->
  exists h, primary mx (h ++ [46]) /\ getMixAddress parse dns rnd addr = Ok (h ++ str ":2080").
Proof.
  intros P A L D M Mn Ab Q. destruct (C192_partial parse dns rnd addr l d mx P A L D M Mn Ab) as (p & h & I & E). exists h.
  destruct (Q _ _ I) as [-> Hn]. split.
  - exists p0. split; [exact I|]. intros q g J. destruct (Q _ _ J) as [-> _]. reflexivity.
  - destruct h; [destruct Hn; reflexivity|exact E].
Qed.
(* Each mail host may be chosen. *)
Theorem C192_any (parse : bytes -> option (bytes * bytes)) (dns : bytes -> option (list (N * bytes))) (addr l d : bytes) (mx : list (N * bytes)) (p : N) (h : bytes) : parse addr = Some (l, d) -> ~ In 64 l -> l <> [] -> 2 <= lenN d ->
  dns d = Some mx -> In (p, h ++ [46]) mx -> h <> [] -> exists rnd, rnd < lenN mx /\ getMixAddress parse dns rnd addr = Ok (h ++ str ":2080").
Proof.
  intros P A L D M I Hn. destruct (In_nth _ _ (0, []) I) as (n & Ln & E). exists (N.of_nat n). assert (Lm : N.of_nat n < lenN mx) by (clear - Ln; unfold lenN, bytes in *; lia). split; [exact Lm|].
  unfold getMixAddress. rewrite (domain_plain _ _ _ _ P A L D). unfold lookupMX.
  destruct d as [|d0 d']; [vm_compute in D; destruct D; reflexivity|]. rewrite M. destruct mx as [|m0 mx']; [destruct I|].
  rewrite N.mod_small by exact Lm. rewrite Nat2N.id. unfold bytes in *. rewrite E. cbn [snd].
  destruct (h ++ [46]) as [|x y] eqn:F; [destruct h; discriminate F|]. rewrite <- F, removelast_last. cbn [rbind]. destruct h; [destruct Hn; reflexivity|reflexivity].
Qed.
(* Without mail hosts the domain itself is asked if DNS fails, and nobody if it has no records or the address no domain. *)
Theorem C192_none parse dns rnd addr : 
  (parse addr = None \/ (exists d, parse addr = Some ([], d)) \/ (exists l d, parse addr = Some (l, d) /\ ~ In 64 l /\ lenN d < 2) -> getMixAddress parse dns rnd addr = Err "mixclient: no RPC host found") /\
  (forall l d, parse addr = Some (l, d) -> ~ In 64 l -> l <> [] -> 2 <= lenN d ->
     (dns d = Some [] -> getMixAddress parse dns rnd addr = Err "mixclient: no RPC host found")
     /\ (dns d = None -> getMixAddress parse dns rnd addr = Ok (d ++ str ":2080"))).
Proof.
  split.
  - intros [P|[(d & P)|(l & d & P & A & L)]]; unfold getMixAddress, getMailDomain; rewrite P; [reflexivity|reflexivity|]. rewrite splitAt_app by exact A.
    replace (lenN l + 2 <? lenN l + 1 + lenN d) with false by (symmetry; apply N.ltb_ge; lia). rewrite andb_false_r. reflexivity.
  - intros l d P A L D. unfold getMixAddress. rewrite (domain_plain _ _ _ _ P A L D). unfold lookupMX.
    destruct d as [|d0 d']; [vm_compute in D; destruct D; reflexivity|]. split; intros ->; reflexivity.
Qed.
Definition exMX : list (N * bytes) := Eval vm_compute in [(10, str "mix.mute.berlin."); (20, str "backup.example.com.")].
Definition exParse (a : bytes) : option (bytes * bytes) := if beq a (str "mix@mute.berlin") then Some (str "mix", str "mute.berlin")
  else if beq a (str """a@b""@mute.berlin") then Some (str "a@b", str "mute.berlin") else None.
Definition exDNS (d : bytes) : option (list (N * bytes)) := if beq d (str "mute.berlin") then Some exMX else None.
(* A backup host may be asked although the primary one is there. *)
Theorem C192_primary_refuted : exists parse dns rnd addr l d mx h, parse addr = Some (l, d) /\ ~ In 64 l /\ dns d = Some mx /\ absolute mx
  /\ getMixAddress parse dns rnd addr = Ok (h ++ str ":2080") /\ ~ primary mx (h ++ [46]).
Proof.
  exists exParse, exDNS, 1, (str "mix@mute.berlin"), (str "mix"), (str "mute.berlin"), exMX, (str "backup.example.com").
  split; [vm_compute; reflexivity|]. split; [intros I; vm_compute in I; repeat (destruct I as [I|I]; [discriminate I|]); destruct I|].
  split; [vm_compute; reflexivity|]. split.
  - intros p h [E|[E|[]]]; apply pair_equal_spec in E as [<- <-]; [exists (str "mix.mute.berlin")|exists (str "backup.example.com")]; vm_compute; reflexivity.
  - split; [vm_compute; reflexivity|]. intros (p & [E|[E|[]]] & M).
    + apply (f_equal (fun x => lenN (snd x))) in E. vm_compute in E. discriminate E.
    + apply (f_equal fst) in E. cbn [fst] in E. subst p. specialize (M 10 _ (or_introl eq_refl)). vm_compute in M. apply M. reflexivity.
Qed.
(* If the local part holds an at sign, another domain is asked. *)
Theorem C192_local_refuted : exists parse dns rnd addr l d h, parse addr = Some (l, d) /\ l <> [] /\ 2 <= lenN d
  /\ dns d <> None /\ getMixAddress parse dns rnd addr = Ok (h ++ str ":2080") /\ h <> d /\ forall mx p, dns d = Some mx -> ~ In (p, h ++ [46]) mx.
Proof.
  exists exParse, exDNS, 0, (str """a@b""@mute.berlin"), (str "a@b"), (str "mute.berlin"), (str "b@mute.berlin").
  split; [vm_compute; reflexivity|]. split; [discriminate|]. split; [vm_compute; discriminate|]. split; [vm_compute; discriminate|].
  split; [vm_compute; reflexivity|]. split; [vm_compute; discriminate|]. intros mx p E.
  assert (F : Some exMX = Some mx) by (rewrite <- E; vm_compute; reflexivity). clear E. injection F as <-.
  intros [E|[E|[]]]; apply (f_equal (fun x => lenN (snd x))) in E; vm_compute in E; discriminate E.
Qed.
Example C192_ex : getMixAddress exParse exDNS 4 (str "mix@mute.berlin") = Ok (str "mix.mute.berlin:2080") /\ absolute exMX.
Proof.
  split; [vm_compute; reflexivity|].
  intros p h [E|[E|[]]]; apply pair_equal_spec in E as [<- <-]; [exists (str "mix.mute.berlin")|exists (str "backup.example.com")]; vm_compute; reflexivity.
Qed.

(* ---- C193 ---- *)
Lemma isReplay_iff t : (exists n, isReplay t = Ok (Some n)) <-> replay t.
Proof.
  unfold isReplay, replay. set (p := str "ErrReplay: "). split.
  - intros [n H]. destruct (lenN t <? lenN p); [discriminate H|]. destruct (beq (takeN (lenN p) t) p) eqn:B; [|discriminate H].
    apply beq_spec in B. exists (dropN (lenN p) t). destruct (parseInt (dropN (lenN p) t)) as [z|]; [|discriminate H]. exists z.
    split; [|reflexivity]. rewrite <- B at 1. symmetry. apply takeN_dropN.
  - intros (s & z & -> & P). rewrite lenN_app. replace (lenN p + lenN s <? lenN p) with false by lia.
    rewrite takeN_app by reflexivity. rewrite beq_refl. rewrite dropN_app by reflexivity. rewrite P. eexists. reflexivity.
Qed.
Lemma accLoop_ok {A} (read : list (bytes * json) -> res A) ans i : forall k a,
  accLoop read ans i k = Ok a <-> exists n data, (n <= i)%nat /\ answered (fun j => ans (k + j)%nat) n data /\ read data = Ok a.
Proof.
  induction i as [|i IH]; intros k a; cbn [accLoop].
  - split.
    + intros H. exists 0%nat. destruct (ans k) as [d|t|] eqn:E; [|destruct (isReplay t) as [[r|]| |]; discriminate H|discriminate H].
      exists d. split; [lia|]. split; [|exact H]. split; [intros j Hj; lia|]. rewrite Nat.add_0_r. exact E.
    + intros (n & data & Hn & [_ E] & R). replace n with 0%nat in E by lia. rewrite Nat.add_0_r in E. rewrite E. exact R.
  - split.
    + intros H. destruct (ans k) as [d|t|] eqn:E; [| |discriminate H].
      * exists 0%nat, d. split; [lia|]. split; [|exact H]. split; [intros j Hj; lia|]. rewrite Nat.add_0_r. exact E.
      * destruct (isReplay t) as [[r|]| |] eqn:Rt; try discriminate H. cbn [rbind] in H. apply IH in H as (n & data & Hn & [B E2] & R).
        exists (S n), data. split; [lia|]. split; [|exact R]. split.
        -- intros [|j] Hj; [exists t; rewrite Nat.add_0_r; split; [exact E|apply isReplay_iff; exists r; exact Rt]|].
           destruct (B j ltac:(lia)) as (t2 & T1 & T2). exists t2. rewrite Nat.add_succ_r. split; [exact T1|exact T2].
        -- rewrite Nat.add_succ_r. exact E2.
    + intros (n & data & Hn & [B E2] & R). destruct n as [|n].
      * rewrite Nat.add_0_r in E2. rewrite E2. exact R.
      * destruct (B 0%nat ltac:(lia)) as (t & T1 & T2). rewrite Nat.add_0_r in T1. rewrite T1. apply isReplay_iff in T2 as [r ->]. cbn [rbind].
        apply IH. exists n, data. split; [lia|]. split; [|exact R]. split; [|rewrite Nat.add_succ_r in E2; exact E2].
        intros j Hj. destruct (B (S j) ltac:(lia)) as (t2 & U1 & U2). exists t2. rewrite Nat.add_succ_r in U1. split; [exact U1|exact U2].
Qed.
(* The deletion succeeds exactly if one of at most four requests was answered with true, those before it being refused as replays. *)
Theorem C193_delete ans : deleteAccount ans = Ok tt <-> exists k data, (k <= 3)%nat /\ answered ans k data /\ member (str "Result") data = Some (JBool true).
Proof.
  unfold deleteAccount. split.
  - intros H. destruct (accLoop readResult ans 3 0) as [b| |] eqn:E; try discriminate H. cbn [rbind] in H. destruct b; [|discriminate H].
    apply accLoop_ok in E as (n & data & Hn & Ha & R). exists n, data. split; [exact Hn|]. split; [exact Ha|]. unfold readResult in R.
    destruct (member (str "Result") data) as [[]|]; congruence.
  - intros (k & data & Hk & Ha & R). assert (E : accLoop readResult ans 3 0 = Ok true).
    { apply accLoop_ok. exists k, data. split; [exact Hk|]. split; [exact Ha|]. unfold readResult. rewrite R. reflexivity. }
    rewrite E. reflexivity.
Qed.
(* A false is reported as an account that does not exist. *)
Theorem C193_nomatch ans k data : (k <= 3)%nat -> answered ans k data -> member (str "Result") data = Some (JBool false) -> deleteAccount ans = Err "mixclient: no match".
Proof.
  intros Hk Ha R. unfold deleteAccount. assert (E : accLoop readResult ans 3 0 = Ok false).
  { apply accLoop_ok. exists k, data. split; [exact Hk|]. split; [exact Ha|]. unfold readResult. rewrite R. reflexivity. }
  rewrite E. reflexivity.
Qed.
Lemma f64_small z : small z -> f64 z = z.
Proof.
  unfold small, f64, f64N. intros H. destruct (z <? 0)%Z eqn:S.
  - replace (Z.to_N (- z) <? 2 ^ 53) with true by lia. lia.
  - replace (Z.to_N z <? 2 ^ 53) with true by lia. lia.
Qed.
Lemma num64_small other z : small z -> num64 other (formatInt z) = z.
Proof.
  intros H. unfold num64. rewrite parseInt_formatInt by (unfold small in H; lia). rewrite f64_small by exact H.
  unfold toInt64, minInt64. unfold small in H. replace ((- 2 ^ 63 <=? z) && (z <? 2 ^ 63))%Z with true by lia. reflexivity.
Qed.
(* The expiry of an account is the one the server sent, for all times below 2^53 seconds. *)
Theorem C193_expiry other ans k data t : (k <= 3)%nat -> answered ans k data -> small t -> member (str "LoadTime") data = Some (JNum (formatInt t)) ->
  accountStat other ans = Ok t.
Proof.
  intros Hk Ha Ht M. apply accLoop_ok. exists k, data. split; [exact Hk|]. split; [exact Ha|]. unfold readLoadTime, asNum. rewrite M.
  rewrite num64_small by exact Ht. reflexivity.
Qed.
(* There is no expiry without such an answer. *)
Theorem C193_only other ans t : accountStat other ans = Ok t -> exists k data lex, (k <= 3)%nat /\ answered ans k data /\ member (str "LoadTime") data = Some (JNum lex).
Proof.
  intros H. apply accLoop_ok in H as (n & data & Hn & Ha & R). unfold readLoadTime, asNum in R.
  destruct (member (str "LoadTime") data) as [[]|] eqn:M; try discriminate R. exists n, data, lex. split; [exact Hn|]. split; [exact Ha|exact M].
Qed.
Definition exAns (k : nat) : netAns :=
  match k with O => NErr (str "ErrReplay: 41") | _ => NData [(str "Result", JBool true); (str "LoadTime", JNum (str "1479000000"))] end.
Example C193_ex : answered exAns 1 [(str "Result", JBool true); (str "LoadTime", JNum (str "1479000000"))]
  /\ deleteAccount exAns = Ok tt /\ accountStat (fun _ => 0%Z) exAns = Ok 1479000000%Z.
Proof.
  split; [|split; vm_compute; reflexivity]. split; [|reflexivity]. intros j Hj. exists (str "ErrReplay: 41"). replace j with 0%nat by lia.
  split; [reflexivity|]. exists (str "41"), 41%Z. split; vm_compute; reflexivity.
Qed.

(* ---- C194 ---- *)
Lemma pad32_32 k : lenN k = 32 -> pad32 k = k.
Proof. intros H. unfold pad32. apply takeN_app. exact H. Qed.
Lemma num64_nano other z : int64 z -> num64 other (formatInt z) = toInt64 (f64 z).
Proof. intros H. unfold num64. rewrite parseInt_formatInt by exact H. reflexivity. Qed.
(* Full statement: the list of messages has the identifiers, keys and times that the server sent.  The time in nanoseconds is that of the
   nearest float64. *)
Theorem C194_partial other data ms : Forall wfMeta ms -> member (str "Messages") data = Some (JArr (map listed ms)) ->
  readMessages other data = Ok (map (fun m => mkMeta (mmID m) (mmTime m) (toInt64 (f64 (mmNano m))) (mmRead m) (mmKey m)) ms).
Proof.
  intros F M. unfold readMessages. rewrite M. clear M. unfold listMessages.
  assert (G : listLoop (map (elemOf other) (map listed ms)) = Ok (map (fun m => mkMeta (mmID m) (mmTime m) (toInt64 (f64 (mmNano m))) (mmRead m) (mmKey m)) ms, false)).
  { induction ms as [|m ms IH]; [reflexivity|]. pose proof (Forall_inv F) as (W1 & W2 & L & S1 & S2 & S3). cbn [map].
    assert (E : elemOf other (listed m) = LObj (Some (num64 other (formatInt (mmTime m)))) (Some (num64 other (formatInt (mmNano m)))) (Some (num64 other (formatInt (mmRead m))))
      (Some (hexenc (mmKey m))) (Some (hexenc (mmID m)))) by reflexivity.
    rewrite E. cbn [listLoop]. rewrite !hexdec_enc by assumption. rewrite (IH (Forall_inv_tail F)). cbn [rbind].
    rewrite (num64_small other _ S1), (num64_small other _ S2), (num64_nano other _ S3). rewrite pad32_32 by exact L. reflexivity. }
  rewrite G. reflexivity.
Qed.
(* It differs from the time sent by at most 128 nanoseconds until the year 2043. *)
Theorem C194_error z : (- 2 ^ 61 < z < 2 ^ 61)%Z -> (Z.abs (toInt64 (f64 z) - z) <= 128)%Z.
Proof.
  assert (B : forall n, n < 2 ^ 61 -> n <= f64N n + 128 /\ f64N n <= n + 128).
  { intros n H. unfold f64N. destruct (N.ltb_spec n (2 ^ 53)) as [L|L]; [lia|].
    set (u := 2 ^ (N.log2 n - 52)). assert (U : 0 < u <= 256).
    { split; [apply N.neq_0_lt_0, N.pow_nonzero; discriminate|]. change 256 with (2 ^ 8). apply N.pow_le_mono_r; [discriminate|].
      assert (N.log2 n < 61) by (apply N.log2_lt_pow2; [lia|exact H]). lia. }
    clearbody u. pose proof (N.div_mod n u ltac:(lia)) as E. pose proof (N.mod_lt n u ltac:(lia)) as R.
    set (q := n / u) in *. set (r := n mod u) in *. clearbody q r. rewrite N.mul_add_distr_r, N.mul_1_l. rewrite (N.mul_comm q u).
    set (m := u * q) in *. clearbody m. destruct (N.ltb_spec u (2 * r)) as [X|X]; cbn [orb]; [lia|].
    destruct ((2 * r =? u) && N.odd q) eqn:Y; [|lia]. apply andb_true_iff in Y as [Y _]. apply N.eqb_eq in Y. lia. }
  intros H. assert (K : (Z.abs (f64 z - z) <= 128)%Z).
  { unfold f64. destruct (z <? 0)%Z eqn:S.
    - destruct (B (Z.to_N (- z)) ltac:(lia)). lia.
    - destruct (B (Z.to_N z) ltac:(lia)). lia. }
  unfold toInt64, minInt64. replace ((- 2 ^ 63 <=? f64 z) && (f64 z <? 2 ^ 63))%Z with true; [exact K|].
  symmetry. apply andb_true_iff. split; [apply Z.leb_le|apply Z.ltb_lt]; lia.
Qed.
(* Two messages of different nanoseconds come out with the same time. *)
Definition exMeta (nano : Z) : msgMeta := mkMeta [7] 1447709522 nano 0 (repeat 1 32).
Theorem C194_refuted : exists data m1 m2 n1 n2, wfMeta m1 /\ wfMeta m2 /\ mmNano m1 <> mmNano m2
  /\ member (str "Messages") data = Some (JArr [listed m1; listed m2]) /\ readMessages (fun _ => 0%Z) data = Ok [n1; n2]
  /\ mmNano n1 = mmNano n2 /\ mmNano n1 <> mmNano m1 /\ mmNano n2 <> mmNano m2.
Proof.
  exists [(str "Messages", JArr [listed (exMeta 1447709522123456789); listed (exMeta 1447709522123456788)])],
    (exMeta 1447709522123456789), (exMeta 1447709522123456788), (exMeta 1447709522123456768), (exMeta 1447709522123456768).
  assert (W : forall n, int64 n -> wfMeta (exMeta n)).
  { intros n Hn. split; [|split; [|split; [reflexivity|split; [|split; [|exact Hn]]]]].
    - apply Forall_cons; [vm_compute; reflexivity|apply Forall_nil].
    - cbn [mmKey exMeta]. apply Forall_forall. intros x I. apply repeat_spec in I as ->. vm_compute. reflexivity.
    - unfold small. cbn [mmTime exMeta]. lia.
    - unfold small. cbn [mmRead exMeta]. lia. }
  split; [apply W; unfold int64; lia|]. split; [apply W; unfold int64; lia|]. split; [discriminate|]. split; [reflexivity|].
  split; [vm_compute; reflexivity|]. split; [reflexivity|]. split; discriminate.
Qed.
Example C194_ex : (Z.abs (toInt64 (f64 1447709522123456789) - 1447709522123456789) = 21)%Z.
Proof. vm_compute. reflexivity. Qed.

Print Assumptions C191_partial.
Print Assumptions C191_id.
Print Assumptions C191_refuted.
Print Assumptions C192_partial.
Print Assumptions C192_equal.
Print Assumptions C192_any.
Print Assumptions C192_none.
Print Assumptions C192_primary_refuted.
Print Assumptions C192_local_refuted.
Print Assumptions C193_delete.
Print Assumptions C193_nomatch.
Print Assumptions C193_expiry.
Print Assumptions C193_only.
Print Assumptions C194_partial.
Print Assumptions C194_error.
Print Assumptions C194_refuted.
