(* C184-C187: the key servers that mutecrypt asks *)
From Verif Require Import Base Maps JsonModel GuardModel CacheModel.
Delimit Scope string_scope with string.
Local Open Scope N_scope.

(* ---------------- specification ---------------- *)
(* the server of a domain whose capabilities were read last, with these capabilities *)
Definition lastAsk (d : bytes) (t : list event) : option (bytes * caps) :=
  fold_left (fun a e => match e with Ask d' u (Some k) => if beq d d' then Some (u, k) else a | _ => a end) t None.
(* each call is sent to the server whose capabilities were read last for the domain, and they list the method *)
Definition announced (t : list event) : Prop :=
  forall t1 d u m t2, t = t1 ++ Call d u m :: t2 -> exists k, lastAsk d t1 = Some (u, k) /\ In m (cMethods k).
Definition evDomain (e : event) : bytes := match e with Ask d _ _ => d | Call d _ _ => d end.
Definition evURL (e : event) : bytes := match e with Ask _ u _ => u | Call _ u _ => u end.
(* the key server of a domain: the host of the process, else the one in the configuration *)
Definition home (conf : map_ bytes) (keydHost keydPort d : bytes) : option bytes :=
  match keydHost with [] => mget (str "keyserver." ++ d) conf | _ => Some (str "https://" ++ keydHost ++ keydPort ++ str "/") end.
(* the command names no other host or port for the domain *)
Definition noOther (d : bytes) (x : cmd) : Prop :=
  match x with
  | CGet dp h => (h = [] /\ ~ In 58 dp) \/ (forall p, dp <> d /\ dp <> d ++ 58 :: p)
  | CShow d' h => h = [] \/ d' <> d
  | CCall _ _ _ _ => True
  end.

(* ---------------- lemmas ---------------- *)
Lemma fold_lastAsk d t a : fold_left (fun a e => match e with Ask d' u (Some k) => if beq d d' then Some (u, k) else a | _ => a end) t a = match lastAsk d t with Some x => Some x | None => a end.
Proof.
  unfold lastAsk. revert a. induction t as [|e t IH] using rev_ind; intros a; [reflexivity|]. rewrite !fold_left_app. cbn [fold_left]. destruct e as [d' u [k|]|d' u m]; [|apply IH|apply IH]. destruct (beq d d'); [reflexivity|apply IH].
Qed.
Lemma lastAsk_app d t t' : lastAsk d (t ++ t') = match lastAsk d t' with Some x => Some x | None => lastAsk d t end.
Proof. unfold lastAsk at 1. rewrite fold_left_app. apply fold_lastAsk. Qed.
Lemma lastAsk_ask d d' u k : lastAsk d [Ask d' u (Some k)] = if beq d d' then Some (u, k) else None. Proof. reflexivity. Qed.

Lemma splitColon_ne s : splitColon s <> [].
Proof. destruct s as [|c s]; cbn [splitColon]; [discriminate|]. destruct (c =? 58); [discriminate|]. destruct (splitColon s); discriminate. Qed.
Lemma splitColon_one s d : splitColon s = [d] <-> s = d /\ ~ In 58 s.
Proof.
  revert d. induction s as [|c s IH]; intros d; cbn [splitColon].
  - split; [intros E; injection E as <-; split; [reflexivity|intros []]|intros [<- _]; reflexivity].
  - destruct (N.eqb_spec c 58) as [->|N].
    + split; [intros E; injection E as <- E; contradiction (splitColon_ne _ E)|intros [_ H]; contradiction H; left; reflexivity].
    + destruct (splitColon s) as [|p ps] eqn:S; [contradiction (splitColon_ne _ S)|]. split.
      * intros E. assert (d = c :: p /\ ps = []) as [-> ->] by (split; congruence). destruct (proj1 (IH p) eq_refl) as [-> H]. split; [reflexivity|]. intros [Q|Q]; [exact (N Q)|contradiction].
      * intros [<- H]. assert (E : p :: ps = [s]) by (apply IH; split; [reflexivity|intros Q; apply H; right; exact Q]). injection E as -> ->. reflexivity.
Qed.
Lemma splitColon_two s d p : splitColon s = [d; p] <-> s = d ++ 58 :: p /\ ~ In 58 d /\ ~ In 58 p.
Proof.
  revert d. induction s as [|c s IH]; intros d; cbn [splitColon].
  - split; [discriminate|]. intros [E _]. destruct d; discriminate E.
  - destruct (N.eqb_spec c 58) as [->|N].
    + split.
      * intros E. assert (d = [] /\ splitColon s = [p]) as [-> E'] by (split; congruence). apply splitColon_one in E' as [-> H]. split; [reflexivity|]. split; [intros []|exact H].
      * intros (E & H & H'). destruct d as [|x d]; [|cbn [app] in E; assert (x = 58) as -> by congruence; contradiction H; left; reflexivity]. cbn [app] in E. assert (s = p) as -> by congruence. rewrite (proj2 (splitColon_one p p)) by (split; [reflexivity|exact H']). reflexivity.
    + destruct (splitColon s) as [|q qs] eqn:S; [contradiction (splitColon_ne _ S)|]. split.
      * intros E. assert (d = c :: q /\ qs = [p]) as [-> ->] by (split; congruence). destruct (proj1 (IH q) eq_refl) as (-> & H & H'). split; [reflexivity|]. split; [|exact H']. intros [Q|Q]; [exact (N Q)|contradiction].
      * intros (E & H & H'). destruct d as [|x d]; cbn [app] in E; [congruence|]. assert (x = c) as -> by congruence. assert (E' : q :: qs = [d; p]) by (apply IH; split; [congruence|split; [intros Q; apply H; right; exact Q|exact H']]). injection E' as -> ->. reflexivity.
Qed.

Section Proofs.
Variables (scheme : bytes -> option bytes) (readCaps : list (bytes * json) -> option caps) (conf : map_ bytes) (certOk : bool) (keydHost keydPort : bytes).
Notation set := (cacheSet scheme readCaps conf certOk).
Notation fil := (fill scheme readCaps conf certOk).
Notation get := (cacheGet scheme readCaps conf certOk).
Notation getCaps := (getCapabilities scheme readCaps conf certOk keydHost keydPort).
Notation perf := (perform scheme readCaps conf certOk keydHost keydPort).
Notation perfs := (performs scheme readCaps conf certOk keydHost keydPort).
Notation client := (newClient scheme conf certOk).

Definition inv (c : cache) (t : list event) : Prop := forall d,
  (exists u k, mget d (cClients c) = Some u /\ mget d (cCaps c) = Some k /\ lastAsk d t = Some (u, k)) \/
  (mget d (cClients c) = None /\ mget d (cCaps c) = None /\ lastAsk d t = None).

(* the two outcomes of Set *)
Lemma set_cases net d p h c r c' t : set net d p h c = (r, c', t) ->
  (exists s, r = Err s /\ c' = c /\ (t = [] \/ exists u, client d p h = Ok u /\ t = [Ask d u None])) \/
  (exists u k, r = Ok tt /\ client d p h = Ok u /\ readReply readCaps (net u) = Ok k /\ c' = mkCache (mset d u (cClients c)) (mset d k (cCaps c)) /\ t = [Ask d u (Some k)]).
Proof.
  unfold cacheSet. destruct (client d p h) as [u|s|] eqn:NC.
  - destruct (readReply readCaps (net u)) as [k|s|] eqn:R; intros E; apply pair_equal_spec in E as [E <-]; apply pair_equal_spec in E as [<- <-].
    + right. exists u, k. repeat split; assumption.
    + left. exists s. split; [reflexivity|]. split; [reflexivity|]. right. exists u. auto.
    + exfalso. unfold readReply in R. destruct (net u); [|discriminate R|discriminate R]. destruct (member _ a) as [[]|]; try discriminate R. destruct (readCaps l); discriminate R.
  - intros E. apply pair_equal_spec in E as [E <-]; apply pair_equal_spec in E as [<- <-]. left. exists s. auto.
  - exfalso. unfold newClient, jsonNew in NC. destruct h as [|b h].
    + destruct (mget _ conf); [|discriminate NC]. destruct (scheme b); [|discriminate NC]. destruct (_ && _); discriminate NC.
    + destruct (scheme _); [|discriminate NC]. destruct (_ && _); discriminate NC.
Qed.
Lemma set_inv net d p h c r c' t t0 : inv c t0 -> set net d p h c = (r, c', t) -> inv c' (t0 ++ t).
Proof.
  intros I E d'. apply set_cases in E as [(s & _ & -> & [->|(u & _ & ->)])|(u & k & _ & _ & _ & -> & ->)].
  - rewrite app_nil_r. apply I.
  - rewrite lastAsk_app. cbn [lastAsk fold_left]. apply I.
  - cbn [cClients cCaps]. rewrite lastAsk_app, lastAsk_ask, !mget_mset. destruct (beq d' d); [left; exists u, k; auto|apply I].
Qed.
Lemma fill_cases net d p h c r c' t : fil net d p h c = (r, c', t) -> (exists k, mget d (cCaps c) = Some k /\ r = Ok tt /\ c' = c /\ t = []) \/ (mget d (cCaps c) = None /\ set net d p h c = (r, c', t)).
Proof.
  unfold fill. destruct (mget d (cCaps c)) as [k|] eqn:M; intros E; [|right; auto]. apply pair_equal_spec in E as [E <-]; apply pair_equal_spec in E as [<- <-]. left. exists k. auto.
Qed.
Lemma fill_inv net d p h c r c' t t0 : inv c t0 -> fil net d p h c = (r, c', t) -> inv c' (t0 ++ t) /\ r <> Panic /\ (r = Ok tt -> exists u k, mget d (cClients c') = Some u /\ mget d (cCaps c') = Some k /\ lastAsk d (t0 ++ t) = Some (u, k)) /\
  Forall (fun e => exists u k, e = Ask d u k /\ client d p h = Ok u) t.
Proof.
  intros I E. apply fill_cases in E as [(k & M & -> & -> & ->)|(M & E)].
  - rewrite app_nil_r. split; [exact I|]. split; [discriminate|]. split; [|constructor]. intros _. destruct (I d) as [H|(_ & H & _)]; [exact H|congruence].
  - pose proof (set_inv _ _ _ _ _ _ _ _ _ I E) as I'. split; [exact I'|]. apply set_cases in E as [(s & -> & -> & T)|(u & k & -> & NC & _ & -> & ->)].
    + split; [discriminate|]. split; [discriminate|]. destruct T as [->|(u & NC & ->)]; [constructor|]. repeat constructor. exists u, None. auto.
    + split; [discriminate|]. split; [|repeat constructor; exists u, (Some k); auto]. intros _. exists u, k. cbn [cClients cCaps]. rewrite !mget_mset_same, lastAsk_app, lastAsk_ask, beq_refl. auto.
Qed.
Lemma get_inv net d p h m c r c' t t0 : inv c t0 -> get net d p h m c = (r, c', t) -> inv c' (t0 ++ t) /\ r <> Panic /\
  (forall u k, r = Ok (u, k) -> lastAsk d (t0 ++ t) = Some (u, k) /\ In m (cMethods k)) /\ Forall (fun e => exists u k, e = Ask d u k /\ client d p h = Ok u) t.
Proof.
  intros I E. unfold cacheGet in E. destruct (fil net d p h c) as [[rf c1] t1] eqn:F. destruct (fill_inv _ _ _ _ _ _ _ _ _ I F) as (I1 & NP & H & A). destruct rf as [[]|s|]; [| |contradiction].
  - destruct (H eq_refl) as (u & k & MC & MK & L). rewrite MK in E. destruct (existsb (beq m) (cMethods k)) eqn:X; cbn [negb] in E.
    + rewrite MC in E. apply pair_equal_spec in E as [E <-]; apply pair_equal_spec in E as [<- <-]. split; [exact I1|]. split; [discriminate|]. split; [|exact A]. intros u' k' Q. assert (u' = u /\ k' = k) as [-> ->] by (split; congruence). split; [exact L|].
      apply existsb_exists in X as (y & I2 & B). apply beq_spec in B. subst y. exact I2.
    + apply pair_equal_spec in E as [E <-]; apply pair_equal_spec in E as [<- <-]. split; [exact I1|]. split; [discriminate|]. split; [discriminate|exact A].
  - apply pair_equal_spec in E as [E <-]; apply pair_equal_spec in E as [<- <-]. split; [exact I1|]. split; [discriminate|]. split; [discriminate|exact A].
Qed.
(* which URL a command may ask for a domain *)
Definition asks (x : cmd) (e : event) : Prop := exists d u k p h, e = Ask d u k /\ client d p h = Ok u /\
  match x with
  | CGet dp h' => h = theHost keydHost h' /\ ((dp = d /\ ~ In 58 dp /\ p = keydPort) \/ exists q, dp = d ++ 58 :: q /\ p = 58 :: q)
  | CShow d' h' => d' = d /\ h = theHost keydHost h' /\ p = keydPort
  | CCall d' _ _ _ => d' = d /\ h = keydHost /\ p = keydPort
  end.
Lemma perf_inv net x c r c' t t0 : inv c t0 -> perf net x c = (r, c', t) -> inv c' (t0 ++ t) /\
  (exists t1, Forall (asks x) t1 /\ (t = t1 \/ exists d u m s ok k, x = CCall d m s ok /\ t = t1 ++ [Call d u m] /\ lastAsk d (t0 ++ t1) = Some (u, k) /\ In m (cMethods k))) /\
  (r = Panic -> exists d m u k, x = CCall d m true true /\ lastAsk d (t0 ++ t) = Some (u, k) /\ cSigKeys k = []).
Proof.
  intros I E. destruct x as [dp h|d h|d m s ok]; cbn [perform] in E.
  - unfold getCapabilities in E. assert (SET : forall d p, set net d p (theHost keydHost h) c = (r, c', t) -> (dp = d /\ ~ In 58 dp /\ p = keydPort) \/ (exists q, dp = d ++ 58 :: q /\ p = 58 :: q) ->
      inv c' (t0 ++ t) /\ (exists t1, Forall (asks (CGet dp h)) t1 /\ (t = t1 \/ exists d u m s ok k, CGet dp h = CCall d m s ok /\ t = t1 ++ [Call d u m] /\ lastAsk d (t0 ++ t1) = Some (u, k) /\ In m (cMethods k))) /\ (r = Panic -> exists d m u k, CGet dp h = CCall d m true true /\ lastAsk d (t0 ++ t) = Some (u, k) /\ cSigKeys k = [])).
    { intros d p E1 SP. split; [exact (set_inv _ _ _ _ _ _ _ _ _ I E1)|]. apply set_cases in E1 as [(s & -> & -> & T)|(u & k & -> & NC & _ & -> & ->)]; (split; [|discriminate]).
      - exists t. split; [|left; reflexivity]. destruct T as [->|(u & NC & ->)]; [constructor|]. repeat constructor. exists d, u, None, p, (theHost keydHost h). auto.
      - eexists. split; [|left; reflexivity]. repeat constructor. exists d, u, (Some k), p, (theHost keydHost h). auto. }
    destruct (splitColon dp) as [|d [|p [|z l]]] eqn:S.
    + contradiction (splitColon_ne _ S).
    + apply splitColon_one in S as [S N]. apply (SET d keydPort E). left. auto.
    + apply splitColon_two in S as (S & _). apply (SET d (58 :: p) E). right. exists p. auto.
    + apply pair_equal_spec in E as [E <-]; apply pair_equal_spec in E as [<- <-]. rewrite app_nil_r. split; [exact I|]. split; [exists []; split; [constructor|left; reflexivity]|discriminate].
  - unfold showCapabilities in E. destruct (fil net d keydPort (theHost keydHost h) c) as [[rf c1] t1] eqn:F. destruct (fill_inv _ _ _ _ _ _ _ _ _ I F) as (I1 & NP & H & A).
    assert (A' : Forall (asks (CShow d h)) t1) by (eapply Forall_impl; [|exact A]; intros e (u & k & -> & NC); exists d, u, k, keydPort, (theHost keydHost h); auto).
    destruct rf as [[]|s|]; [destruct (H eq_refl) as (u & k & _ & MK & _); rewrite MK in E| |contradiction]; apply pair_equal_spec in E as [E <-]; apply pair_equal_spec in E as [<- <-]; (split; [exact I1|split; [exists t1; auto|discriminate]]).
  - unfold callServer in E. destruct (get net d keydPort keydHost m c) as [[rg c1] t1] eqn:G. destruct (get_inv _ _ _ _ _ _ _ _ _ _ I G) as (I1 & NP & H & A).
    assert (A' : Forall (asks (CCall d m s ok)) t1) by (eapply Forall_impl; [|exact A]; intros e (u & k & -> & NC); exists d, u, k, keydPort, keydHost; auto).
    destruct rg as [[u k]|x|]; [| |contradiction]; apply pair_equal_spec in E as [E <-]; apply pair_equal_spec in E as [<- <-].
    + destruct (H u k eq_refl) as [L IM]. assert (L2 : forall d', lastAsk d' (t0 ++ t1 ++ [Call d u m]) = lastAsk d' (t0 ++ t1)) by (intros d'; rewrite app_assoc, lastAsk_app; reflexivity). split; [intros d'; rewrite L2; apply I1|]. split.
      * exists t1. split; [exact A'|]. right. exists d, u, m, s, ok, k. auto.
      * intros R. exists d, m, u, k. rewrite L2. destruct ok; cbn [negb] in R; [|discriminate R]. destruct s; [|discriminate R]. destruct (cSigKeys k) eqn:SK; [|discriminate R]. auto.
    + split; [exact I1|]. split; [exists t1; auto|discriminate].
Qed.
Lemma announced_app t0 t1 : announced t0 -> (forall e, In e t1 -> exists d u k, e = Ask d u k) -> announced (t0 ++ t1).
Proof.
  intros A N a d u m b E. revert b E. induction t1 as [|e t1 IH] using rev_ind; intros b E; [rewrite app_nil_r in E; exact (A _ _ _ _ _ E)|]. destruct b as [|z b] using rev_ind.
  - rewrite app_assoc in E. apply app_inj_tail in E as [_ E]. destruct (N e) as (d' & u' & k & Q); [apply in_or_app; right; left; reflexivity|]. congruence.
  - clear IHb. rewrite app_assoc, app_comm_cons, app_assoc in E. apply app_inj_tail in E as [E _]. apply (IH (fun e I => N e (in_or_app _ _ _ (or_introl I))) b). exact E.
Qed.
Lemma announced_call t d u m k : announced t -> lastAsk d t = Some (u, k) -> In m (cMethods k) -> announced (t ++ [Call d u m]).
Proof.
  intros A L IM a d' u' m' b E. destruct b as [|z b] using rev_ind.
  - apply app_inj_tail in E as [<- E]. assert (d' = d /\ u' = u /\ m' = m) as (-> & -> & ->) by (repeat split; congruence). eauto.
  - clear IHb. rewrite app_comm_cons, app_assoc in E. apply app_inj_tail in E as [E _]. exact (A _ _ _ _ _ E).
Qed.
Lemma perfs_inv l c t0 c' t : inv c t0 -> announced t0 -> perfs l c = (c', t) -> inv c' (t0 ++ t) /\ announced (t0 ++ t) /\
  Forall (fun e => match e with Ask _ _ _ => exists x, In x (map snd l) /\ asks x e | Call d u _ => exists k, lastAsk d (t0 ++ t) <> None /\ In (Ask d u (Some k)) (t0 ++ t) end) t.
Proof.
  assert (LA : forall d t u k, lastAsk d t = Some (u, k) -> In (Ask d u (Some k)) t).
  { intros d s u k. induction s as [|e s IH] using rev_ind; [discriminate|]. rewrite lastAsk_app. intros H. apply in_or_app. destruct e as [d' u' [k'|]|d' u' m']; cbn [lastAsk fold_left] in H; try (left; apply IH; exact H).
    destruct (beq d d') eqn:B; [|left; apply IH; exact H]. apply beq_spec in B. subst d'. right. left. congruence. }
  revert c t0 t. induction l as [|[net x] l IH]; intros c t0 t I A E; cbn [performs] in E.
  - apply pair_equal_spec in E as [<- <-]. rewrite app_nil_r. split; [exact I|]. split; [exact A|constructor].
  - destruct (perf net x c) as [[r c1] t1] eqn:P. destruct (perfs l c1) as [c2 t2] eqn:PS. apply pair_equal_spec in E as [<- <-]. destruct (perf_inv _ _ _ _ _ _ _ I P) as (I1 & (ta & FA & T) & _).
    assert (ASK : forall e, In e ta -> exists d u k, e = Ask d u k) by (intros e Q; rewrite Forall_forall in FA; destruct (FA e Q) as (d & u & k & p & h & -> & _); eauto).
    assert (A1 : announced (t0 ++ t1)). { destruct T as [->|(d & u & m & s & ok & k & _ & -> & L & IM)]; [apply announced_app; assumption|]. rewrite app_assoc. eapply announced_call; [apply announced_app; assumption|exact L|exact IM]. }
    destruct (IH c1 (t0 ++ t1) t2 I1 A1 PS) as (I2 & A2 & F). rewrite <- app_assoc in I2, A2, F. split; [exact I2|]. split; [exact A2|]. apply Forall_app. split.
    + assert (FA' : Forall (fun e => match e with Ask _ _ _ => exists x0, In x0 (map snd ((net, x) :: l)) /\ asks x0 e | Call d u _ => exists k, lastAsk d (t0 ++ t1 ++ t2) <> None /\ In (Ask d u (Some k)) (t0 ++ t1 ++ t2) end) ta).
      { eapply Forall_impl; [|exact FA]. intros e H. pose proof H as (d & u & k & p & h & -> & _). exists x. split; [left; reflexivity|exact H]. }
      destruct T as [->|(d & u & m & s & ok & k & _ & -> & L & IM)]; [exact FA'|]. apply Forall_app. split; [exact FA'|]. repeat constructor. exists k. split.
      * rewrite <- !app_assoc, !app_assoc, <- (app_assoc (t0 ++ ta)), lastAsk_app, L. destruct (lastAsk d ([Call d u m] ++ t2)); discriminate.
      * rewrite <- app_assoc, app_assoc. apply in_or_app. left. apply LA, L.
    + eapply Forall_impl; [|exact F]. intros e H. destruct e as [d u k|d u m]; [|exact H]. destruct H as (y & Y & H). exists y. split; [right; exact Y|exact H].
Qed.
Lemma inv_new : inv newCache []. Proof. intros d. right. auto. Qed.
Lemma announced_nil : announced []. Proof. intros t1 d u m t2 E. destruct t1; discriminate E. Qed.
Lemma newClient_ok d p h u : client d p h = Ok u -> (exists s, scheme u = Some s /\ (s = str "https" -> certOk = true)) /\
  ((h = [] /\ mget (str "keyserver." ++ d) conf = Some u) \/ (h <> [] /\ u = str "https://" ++ h ++ p ++ str "/")).
Proof.
  assert (J : forall v, jsonNew scheme certOk v = Ok u -> u = v /\ exists s, scheme u = Some s /\ (s = str "https" -> certOk = true)).
  { intros v. unfold jsonNew. destruct (scheme v) as [s|] eqn:S; [|discriminate]. destruct (beq s (str "https") && negb certOk) eqn:B; [discriminate|]. intros E. assert (u = v) as -> by congruence. split; [reflexivity|]. exists s. split; [exact S|].
    intros ->. rewrite beq_refl in B. destruct certOk; [reflexivity|discriminate B]. }
  unfold newClient. destruct h as [|b h].
  - destruct (mget (str "keyserver." ++ d) conf) as [v|] eqn:M; [|discriminate]. intros E. apply J in E as [-> H]. split; [exact H|]. left. auto.
  - intros E. apply J in E as [-> H]. split; [exact H|]. right. split; [discriminate|reflexivity].
Qed.
End Proofs.

(* ---------------- C184: which server is asked ---------------- *)
(* For all sequences of commands: if none of them names another host or port for the domain then all requests about the domain go to
   its key server.  Missing: see C184_host_refuted, C184_port_refuted. *)
Theorem C184_home_partial : forall scheme readCaps conf certOk keydHost keydPort l c t d e, performs scheme readCaps conf certOk keydHost keydPort l newCache = (c, t) ->
  Forall (noOther d) (map snd l) -> In e t -> evDomain e = d -> home conf keydHost keydPort d = Some (evURL e).
Proof.
  intros scheme readCaps conf certOk keydHost keydPort l c t d e E NO I ED. destruct (perfs_inv _ _ _ _ _ _ _ _ [] _ _ (inv_new) announced_nil E) as (_ & _ & F). cbn [app] in F. rewrite Forall_forall in F, NO.
  assert (ASK : forall u k, In (Ask d u k) t -> home conf keydHost keydPort d = Some u).
  { intros u k IA. pose proof (F _ IA) as (x & X & (d' & u' & k' & p & h & Q & NC & M)). assert (d' = d /\ u' = u) as [-> ->] by (split; congruence). apply NO in X. apply newClient_ok in NC as (_ & NC).
    assert (HP : h = keydHost /\ p = keydPort).
    { destruct x as [dp h'|d' h'|d' m s ok]; cbn [noOther] in X.
      - destruct M as [-> M]. destruct X as [[-> NI]|X].
        + destruct M as [(_ & _ & ->)|(q & -> & _)]; [split; reflexivity|]. contradiction NI. apply in_or_app. right. left. reflexivity.
        + destruct M as [(Q2 & _)|(q & Q2 & _)]; [contradiction (proj1 (X []))|contradiction (proj2 (X q))].
      - destruct M as (-> & -> & ->). destruct X as [->|X]; [split; reflexivity|contradiction].
      - destruct M as (_ & -> & ->). auto. }
    destruct HP as [-> ->]. unfold home. destruct NC as [[-> NC]|[NE ->]]; [exact NC|]. destruct keydHost; [contradiction|reflexivity]. }
  destruct e as [d' u k|d' u m]; cbn [evDomain evURL] in *; subst d'; [exact (ASK u k I)|]. destruct (F _ I) as (k & _ & IA). exact (ASK u (Some k) IA).
Qed.
(* fixtures: the scheme is the part before the colon, the capabilities are the strings of the member METHODS and SIGPUBKEYS *)
Fixpoint exScheme (s : bytes) : option bytes := match s with [] => None | c :: s' => if c =? 58 then Some [] else match exScheme s' with Some x => Some (c :: x) | None => None end end.
Definition exStrs (o : option json) : list bytes := match o with Some (JArr l) => flat_map (fun v => match v with JStr s => [s] | _ => [] end) l | _ => [] end.
Definition exRead (l : list (bytes * json)) : option caps := Some (mkCaps (exStrs (member (str "METHODS") l)) (exStrs (member (str "SIGPUBKEYS") l))).
Definition exConf : map_ bytes := [(str "keyserver.mute.one", str "https://keys.mute.one/"); (str "keyserver.old.org", str "http://keys.old.org/")].
Definition exCaps (methods keys : list String.string) : rpc := Ok [(str "CAPABILITIES", JObj [(str "METHODS", JArr (map (fun s => JStr (str s)) methods)); (str "SIGPUBKEYS", JArr (map (fun s => JStr (str s)) keys))])].
Definition exNet (u : bytes) : rpc := if beq u (str "https://keys.mute.one/") then exCaps ["A.Get"; "B.Put"]%string ["key"]%string else if beq u (str "https://other.org:1/") then exCaps ["A.Get"]%string [] else if beq u (str "http://keys.old.org/") then exCaps ["A.Get"]%string ["old"]%string else Err "unreachable".
Definition exRun (host port : bytes) (l : list cmd) : list event := snd (performs exScheme exRead exConf true host port (map (fun x => (exNet, x)) l) newCache).
Example C184_ex : Forall (noOther (str "mute.one")) [CCall (str "mute.one") (str "A.Get") false true; CGet (str "old.org:80") []; CShow (str "mute.one") []] /\
  exRun [] (str ":9") [CCall (str "mute.one") (str "A.Get") false true; CGet (str "old.org:80") []; CShow (str "mute.one") []; CCall (str "mute.one") (str "B.Put") true true] =
  let k := Some (mkCaps [str "A.Get"; str "B.Put"] [str "key"]) in
  [Ask (str "mute.one") (str "https://keys.mute.one/") k; Call (str "mute.one") (str "https://keys.mute.one/") (str "A.Get"); Ask (str "old.org") (str "http://keys.old.org/") (Some (mkCaps [str "A.Get"] [str "old"])); Call (str "mute.one") (str "https://keys.mute.one/") (str "B.Put")].
Proof.
  split; [|vm_compute; reflexivity]. apply Forall_cons; [exact I|]. apply Forall_cons; [|apply Forall_cons; [left; reflexivity|apply Forall_nil]]. right.
  intros p. split; [vm_compute; discriminate|]. intros Q. apply (f_equal (fun l => nth 0 l 0)) in Q. vm_compute in Q. discriminate Q.
Qed.
(* caps get --host or caps show --host for a domain redirects all later requests about it to that host *)
Theorem C184_host_refuted : exists scheme readCaps conf port l d host m url, snd (performs scheme readCaps conf true [] port l newCache) <> [] /\ map snd l = [CShow d host; CCall d m false true] /\
  last (snd (performs scheme readCaps conf true [] port l newCache)) (Ask [] [] None) = Call d url m /\ home conf [] port d <> Some url.
Proof.
  exists exScheme, exRead, exConf, (str ":1"), (map (fun x => (exNet, x)) [CShow (str "mute.one") (str "other.org"); CCall (str "mute.one") (str "A.Get") false true]), (str "mute.one"), (str "other.org"), (str "A.Get"), (str "https://other.org:1/").
  repeat split; vm_compute; try reflexivity; discriminate.
Qed.
(* the port in caps get DMN:PRT is ignored unless a host is named: the URL of the configuration is used *)
Theorem C184_port_refuted : forall scheme readCaps conf certOk keydPort net d p c, ~ In 58 d -> ~ In 58 p ->
  getCapabilities scheme readCaps conf certOk [] keydPort net (d ++ 58 :: p) [] c = getCapabilities scheme readCaps conf certOk [] keydPort net d [] c.
Proof.
  intros scheme readCaps conf certOk keydPort net d p c N N'. unfold getCapabilities. rewrite (proj2 (splitColon_two _ d p)) by auto. rewrite (proj2 (splitColon_one d d)) by auto. cbn [theHost]. unfold cacheSet, newClient. reflexivity.
Qed.

(* ---------------- C185: only announced methods are called ---------------- *)
(* for all sequences of commands, networks and answers *)
Theorem C185_announced : forall scheme readCaps conf certOk keydHost keydPort l, announced (snd (performs scheme readCaps conf certOk keydHost keydPort l newCache)).
Proof.
  intros. destruct (performs scheme readCaps conf certOk keydHost keydPort l newCache) as [c t] eqn:E. exact (proj1 (proj2 (perfs_inv _ _ _ _ _ _ _ _ [] _ _ inv_new announced_nil E))).
Qed.
(* a command crashes only if the answer is to be checked with a signature key and the server announced none *)
Theorem C185_crash : forall scheme readCaps conf certOk keydHost keydPort l net x c c' t t' r, performs scheme readCaps conf certOk keydHost keydPort l newCache = (c, t) ->
  perform scheme readCaps conf certOk keydHost keydPort net x c = (r, c', t') -> r = Panic -> exists d m u k, x = CCall d m true true /\ lastAsk d (t ++ t') = Some (u, k) /\ cSigKeys k = [].
Proof.
  intros scheme readCaps conf certOk keydHost keydPort l net x c c' t t' r E P R. destruct (perfs_inv _ _ _ _ _ _ _ _ [] _ _ inv_new announced_nil E) as (I & _ & _). exact (proj2 (proj2 (perf_inv _ _ _ _ _ _ _ _ _ _ _ _ _ I P)) R).
Qed.
Theorem C185_crash_refuted : exists scheme readCaps conf host port net x, fst (fst (perform scheme readCaps conf true host port net x newCache)) = Panic.
Proof. exists exScheme, exRead, exConf, (str "other.org"), (str ":1"), exNet, (CCall (str "mute.one") (str "A.Get") true true). vm_compute. reflexivity. Qed.
Example C185_ex : exRun (str "other.org") (str ":1") [CCall (str "mute.one") (str "B.Put") true true; CCall (str "mute.one") (str "A.Get") false true] =
  [Ask (str "mute.one") (str "https://other.org:1/") (Some (mkCaps [str "A.Get"] [])); Call (str "mute.one") (str "https://other.org:1/") (str "A.Get")].
Proof. vm_compute. reflexivity. Qed.

(* ---------------- C186: refreshing the capabilities ---------------- *)
(* what is known about a domain *)
Definition known (d : bytes) (c : cache) : option (bytes * caps) := match mget d (cClients c), mget d (cCaps c) with Some u, Some k => Some (u, k) | _, _ => None end.
(* the answer of the server has the member CAPABILITIES, which reads as these capabilities *)
Definition said (readCaps : list (bytes * json) -> option caps) (ans : rpc) (k : caps) : Prop := exists data rep, ans = Ok data /\ member (str "CAPABILITIES") data = Some (JObj rep) /\ readCaps rep = Some k.
Lemma readReply_said readCaps ans k : readReply readCaps ans = Ok k -> said readCaps ans k.
Proof.
  unfold readReply. destruct ans as [data| |]; intros E; [|discriminate E|discriminate E]. destruct (member (str "CAPABILITIES") data) as [[| | | | |rep]|] eqn:M; try discriminate E. destruct (readCaps rep) as [c|] eqn:R; [|discriminate E].
  injection E as <-. exists data, rep. auto.
Qed.
(* caps get replaces what is known about its domain, and nothing else, or changes nothing *)
Theorem C186_get : forall scheme readCaps conf certOk keydHost keydPort net dp h c r c' t, getCapabilities scheme readCaps conf certOk keydHost keydPort net dp h c = (r, c', t) ->
  (c' = c /\ exists s, r = Err s) \/
  exists d u k, (dp = d \/ exists p, dp = d ++ 58 :: p) /\ r = Ok tt /\ known d c' = Some (u, k) /\ said readCaps (net u) k /\ forall d', d' <> d -> known d' c' = known d' c.
Proof.
  intros scheme readCaps conf certOk keydHost keydPort net dp h c r c' t E.
  assert (SET : forall d p, (dp = d \/ exists p, dp = d ++ 58 :: p) -> cacheSet scheme readCaps conf certOk net d p (theHost keydHost h) c = (r, c', t) -> (c' = c /\ exists s, r = Err s) \/
    exists d u k, (dp = d \/ exists p, dp = d ++ 58 :: p) /\ r = Ok tt /\ known d c' = Some (u, k) /\ said readCaps (net u) k /\ forall d', d' <> d -> known d' c' = known d' c).
  { intros d p D S. apply set_cases in S as [(s & -> & -> & _)|(u & k & -> & _ & R & -> & _)]; [left; split; [reflexivity|eauto]|]. right. exists d, u, k. split; [exact D|]. split; [reflexivity|].
    unfold known. cbn [cClients cCaps]. rewrite !mget_mset_same. split; [reflexivity|]. split; [apply readReply_said, R|]. intros d' N. rewrite !mget_mset_other by exact N. reflexivity. }
  unfold getCapabilities in E. destruct (splitColon dp) as [|d [|p [|z l]]] eqn:S.
  - contradiction (splitColon_ne _ S).
  - apply splitColon_one in S as [S _]. apply (SET d keydPort); [left; exact S|exact E].
  - apply splitColon_two in S as (S & _). apply (SET d (58 :: p)); [right; exists p; exact S|exact E].
  - apply pair_equal_spec in E as [E <-]; apply pair_equal_spec in E as [<- <-]. left. split; [reflexivity|eauto].
Qed.
(* what is once known stays known, however many commands fail *)
Theorem C186_kept : forall scheme readCaps conf certOk keydHost keydPort l c d, known d c <> None -> (forall dp h, In (CGet dp h) (map snd l) -> dp <> d /\ forall p, dp <> d ++ 58 :: p) ->
  known d (fst (performs scheme readCaps conf certOk keydHost keydPort l c)) = known d c.
Proof.
  intros scheme readCaps conf certOk keydHost keydPort l. induction l as [|[net x] l IH]; intros c d K NG; [reflexivity|]. cbn [performs]. destruct (perform scheme readCaps conf certOk keydHost keydPort net x c) as [[r c1] t1] eqn:P. destruct (performs scheme readCaps conf certOk keydHost keydPort l c1) as [c2 t2] eqn:PS. cbn [fst].
  assert (FILL : forall d' p h r c' t, fill scheme readCaps conf certOk net d' p h c = (r, c', t) -> known d c' = known d c).
  { intros d' p h r' c' t F. apply fill_cases in F as [(k & _ & _ & -> & _)|(M & S)]; [reflexivity|]. apply set_cases in S as [(s & _ & -> & _)|(u & k & _ & _ & _ & -> & _)]; [reflexivity|]. unfold known in *. cbn [cClients cCaps].
    assert (N : d <> d') by (intros ->; rewrite M in K; destruct (mget d' (cClients c)); contradiction K; reflexivity). rewrite !mget_mset_other by exact N. reflexivity. }
  assert (K1 : known d c1 = known d c).
  { destruct x as [dp h|d' h|d' m s ok]; cbn [perform] in P.
    - destruct (C186_get _ _ _ _ _ _ _ _ _ _ _ _ _ P) as [[-> _]|(d' & u & k & D & _ & _ & _ & O)]; [reflexivity|]. apply O. destruct (NG dp h (or_introl eq_refl)) as [N1 N2]. intros ->. destruct D as [D|[p D]]; [exact (N1 D)|exact (N2 p D)].
    - unfold showCapabilities in P. destruct (fill _ _ _ _ _ _ _ _ _) as [[rf c3] t3] eqn:F. pose proof (FILL _ _ _ _ _ _ F). destruct rf; apply pair_equal_spec in P as [P <-]; apply pair_equal_spec in P as [_ <-]; assumption.
    - unfold callServer, cacheGet in P. destruct (fill _ _ _ _ _ _ _ _ _) as [[rf c3] t3] eqn:F. pose proof (FILL _ _ _ _ _ _ F) as H. destruct rf as [y|y|]; [|apply pair_equal_spec in P as [P <-]; apply pair_equal_spec in P as [_ <-]; exact H|apply pair_equal_spec in P as [P <-]; apply pair_equal_spec in P as [_ <-]; exact H].
      destruct (mget d' (cCaps c3)) as [k|]; [|apply pair_equal_spec in P as [P <-]; apply pair_equal_spec in P as [_ <-]; exact H]. destruct (existsb _ _); cbn [negb] in P; [|apply pair_equal_spec in P as [P <-]; apply pair_equal_spec in P as [_ <-]; exact H].
      destruct (mget d' (cClients c3)); apply pair_equal_spec in P as [P <-]; apply pair_equal_spec in P as [_ <-]; exact H. }
  replace c2 with (fst (performs scheme readCaps conf certOk keydHost keydPort l c1)) by (rewrite PS; reflexivity). rewrite IH; [exact K1|rewrite K1; exact K|]. intros dp h I. apply (NG dp h). right. exact I.
Qed.
(* caps show with a host shows what is known about the domain from another host *)
Theorem C186_show_refuted : exists scheme readCaps conf port net d h c k, fst (fst (showCapabilities scheme readCaps conf true [] port net d h c)) = Ok k /\ c = fst (performs scheme readCaps conf true [] port [(net, CGet d [])] newCache) /\
  h <> [] /\ readReply readCaps (net (str "https://" ++ h ++ port ++ str "/")) <> Ok k /\ is_ok (readReply readCaps (net (str "https://" ++ h ++ port ++ str "/"))) = true.
Proof.
  exists exScheme, exRead, exConf, (str ":1"), exNet, (str "mute.one"), (str "other.org"), (fst (performs exScheme exRead exConf true [] (str ":1") [(exNet, CGet (str "mute.one") [])] newCache)), (mkCaps [str "A.Get"; str "B.Put"] [str "key"]).
  split; [vm_compute; reflexivity|]. split; [reflexivity|]. split; [vm_compute; discriminate|]. split; [vm_compute; discriminate|vm_compute; reflexivity].
Qed.
Example C186_ex : let c := fst (performs exScheme exRead exConf true [] (str ":1") [(exNet, CGet (str "mute.one") []); (exNet, CGet (str "mute.one") (str "nowhere")); (exNet, CGet (str "a:b:c") [])] newCache) in
  known (str "mute.one") c = Some (str "https://keys.mute.one/", mkCaps [str "A.Get"; str "B.Put"] [str "key"]).
Proof. vm_compute. reflexivity. Qed.

(* ---------------- C187: the connection is encrypted ---------------- *)
(* every request goes to an address with the scheme https, with the certificate of the program, or to an address of the configuration.
   Missing: see C187_refuted. *)
Theorem C187_partial : forall scheme readCaps conf certOk keydHost keydPort l c t e, (forall x, scheme (str "https://" ++ x) = Some (str "https") \/ scheme (str "https://" ++ x) = None) ->
  performs scheme readCaps conf certOk keydHost keydPort l newCache = (c, t) -> In e t ->
  (scheme (evURL e) = Some (str "https") /\ certOk = true) \/ (exists s, scheme (evURL e) = Some s /\ s <> str "https") /\ mget (str "keyserver." ++ evDomain e) conf = Some (evURL e).
Proof.
  intros scheme readCaps conf certOk keydHost keydPort l c t e H E I. destruct (perfs_inv _ _ _ _ _ _ _ _ [] _ _ (inv_new) announced_nil E) as (_ & _ & F). cbn [app] in F. rewrite Forall_forall in F.
  assert (ASK : forall d u k, In (Ask d u k) t -> (scheme u = Some (str "https") /\ certOk = true) \/ (exists s, scheme u = Some s /\ s <> str "https") /\ mget (str "keyserver." ++ d) conf = Some u).
  { intros d u k IA. pose proof (F _ IA) as (x & X & (d' & u' & k' & p & h & Q & NC & _)). assert (d' = d /\ u' = u) as [-> ->] by (split; congruence). apply newClient_ok in NC as ((s & S & CO) & NC). destruct (beq s (str "https")) eqn:B.
    - apply beq_spec in B. subst s. left. auto.
    - apply beq_neq in B. right. split; [eauto|]. destruct NC as [[_ NC]|[_ ->]]; [exact NC|]. exfalso. destruct (H (h ++ p ++ str "/")); congruence. }
  destruct e as [d u k|d u m]; cbn [evDomain evURL]; [exact (ASK d u k I)|]. destruct (F _ I) as (k & _ & IA). exact (ASK d u (Some k) IA).
Qed.
Theorem C187_refuted : exists scheme readCaps conf port net d m, map (fun e => scheme (evURL e)) (snd (performs scheme readCaps conf false [] port [(net, CCall d m true true)] newCache)) = [Some (str "http"); Some (str "http")].
Proof. exists exScheme, exRead, exConf, (str ":1"), exNet, (str "old.org"), (str "A.Get"). vm_compute. reflexivity. Qed.
Example C187_ex : map (fun e => exScheme (evURL e)) (exRun (str "other.org") (str ":1") [CCall (str "mute.one") (str "A.Get") false true]) = [Some (str "https"); Some (str "https")] /\
  snd (performs exScheme exRead exConf false (str "other.org") (str ":1") [(exNet, CCall (str "mute.one") (str "A.Get") false true)] newCache) = [].
Proof. split; vm_compute; reflexivity. Qed.

Print Assumptions C184_home_partial.
Print Assumptions C184_host_refuted.
Print Assumptions C184_port_refuted.
Print Assumptions C185_announced.
Print Assumptions C185_crash.
Print Assumptions C185_crash_refuted.
Print Assumptions C186_get.
Print Assumptions C186_kept.
Print Assumptions C186_show_refuted.
Print Assumptions C187_partial.
Print Assumptions C187_refuted.
