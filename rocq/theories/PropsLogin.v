(* mutectrl db create, and the server of the app mode. *)
From Verif Require Import Base Base64Model Base64Proofs CryptoModel Maps KeyfileModel PropsKeyfile ScanProofs PropsPassphrase MixClientModel PipeModel ConfigModel PropsConfig PrepareModel PropsPrepare.
From Verif Require Import ScanModel.
From Coq Require Import ZifyBool ZifyN ZifyNat.
Delimit Scope string_scope with string.
Local Open Scope N_scope.

(* ---------------- C145: creating the databases ---------------- *)
Lemma last_prefixes f content n s : last (prefixes f content n s) s = mset f (firstn n content) s.
Proof. unfold prefixes. rewrite seq_S, map_app. cbn [map]. apply last_last. Qed.
Lemma prefixes_frame f content n s g x : In x (prefixes f content n s) -> g <> f -> mget g x = mget g s.
Proof. unfold prefixes. intros I N0. apply in_map_iff in I as (m & <- & _). apply mget_mset_other. congruence. Qed.
Lemma write_frame C K d f pass iter key rnd s r l g x : writeKeyfile C K d f pass iter key rnd s = (r, l) -> In x l -> g <> f -> mget g x = mget g s.
Proof.
  intros E I N0. unfold writeKeyfile in E. destruct (mget f s); [injection E as <- <-; destruct I|]. destruct ((iter <? 0)%Z || _); [injection E as <- <-; destruct I|]. destruct (negb (lenN key =? 32)); [injection E as <- <-; destruct I|]. destruct (negb (dCreate d)); [injection E as <- <-; destruct I|].
  destruct (lenN rnd <? 32); [injection E as <- <-; destruct I as [<-|[]]; apply mget_mset_other; congruence|]. destruct (lenN rnd <? 48); [injection E as <- <-; destruct I as [<-|[]]; apply mget_mset_other; congruence|].
  destruct (dRoom d) as [m|]; [destruct (m <? _)%nat|]; injection E as <- <-; exact (prefixes_frame _ _ _ _ _ _ I N0).
Qed.
Lemma create_frame C K d name pass iter rnd s r l g : create C K d name pass iter rnd s = (r, l) -> g <> dbFile name -> g <> keyFile name -> mget g (last l s) = mget g s.
Proof.
  intros E N1 N2. unfold create in E. destruct (mget (dbFile name) s); [injection E as <- <-; reflexivity|]. destruct (mget (keyFile name) s); [injection E as <- <-; reflexivity|]. destruct (generateKeyfile C K d (keyFile name) pass iter rnd s) as [r0 l0] eqn:G.
  assert (F : mget g (last l0 s) = mget g s).
  { unfold generateKeyfile in G. destruct (lenN rnd <? 32); [injection G as <- <-; reflexivity|]. destruct (writeKeyfile _ _ _ _ _ _ _ _ _) as [r1 l1] eqn:W. injection G as _ <-. destruct (last_in l1 s) as [-> |I]; [reflexivity|]. exact (write_frame _ _ _ _ _ _ _ _ _ _ _ _ _ W I N2). }
  destruct r0; injection E as <- <-; [|exact F|exact F]. rewrite last_last, mget_mset_other by congruence. exact F.
Qed.
Lemma names_apart2 home : dbFile (keysName home) <> dbFile (msgsName home) /\ dbFile (keysName home) <> keyFile (msgsName home) /\ keyFile (keysName home) <> dbFile (msgsName home) /\ keyFile (keysName home) <> keyFile (msgsName home).
Proof. unfold dbFile, keyFile, msgsName, keysName. rewrite <- !app_assoc. repeat split; intros Q; apply app_inv_head in Q; vm_compute in Q; discriminate Q. Qed.
Lemma createLines pass cut : isLine pass -> concat (cut (createInput pass)) = createInput pass -> lenN (createInput pass) <= 2048 -> exists sc, askNew (cut (createInput pass)) = Ok (pass, sc).
Proof.
  intros A E L. destruct (C132_short_partial (cut (createInput pass))) as [H _]; [rewrite E; exact L|]. rewrite E in H. unfold line in H.
  assert (Q : linesOf (createInput pass) = [pass; pass]) by (unfold createInput; cbn [app]; rewrite (linesOf_line pass _ A), (linesOf_line pass [] A); reflexivity). rewrite Q in H. cbn [nth] in H. exact (H eq_refl).
Qed.
(* When db create has created both databases, both are opened with the passphrase, the configuration is stored and written for the other
   programs, and the wallet key is stored.  Missing: passphrases longer than about 1000 bytes (see C132), and failures. *)
Theorem C145_success_partial : forall C K L P dM dK home iter rM rK e cut opt key pass k s r k' s', isLine pass -> (forall x, concat (cut x) = x) -> lenN (createInput pass) <= 2048 ->
  ctrlCreate C K L P dM dK home iter rM rK e cut opt key pass k s = (r, k', s') -> is_ok r = true ->
  (exists kM kK, openDB C K (msgsName home) pass s' = Ok kM /\ openDB C K (keysName home) pass s' = Ok kK) /\
  kWallet (tStore k') = match opt with [] => b64enc key | _ => opt end /\ exists c, kConf (tStore k') = Some c /\ tFile k' = Some c.
Proof.
  intros C K L P dM dK home iter rM rK e cut opt key pass k s r k' s' A CU LE E R. unfold ctrlCreate in E. destruct (create C K dM (msgsName home) pass iter rM s) as [r1 l1] eqn:C1. destruct r1 as [[]|x|]; [|injection E as <- <- <-; discriminate R|injection E as <- <- <-; discriminate R].
  destruct (C98_opens_partial _ _ _ _ _ _ _ _ _ C1) as (kM & _ & OM). rewrite OM in E. destruct (fetchconf C L P e k) as [rf kf] eqn:F. destruct rf as [[]|x|]; [|injection E as <- <- <-; discriminate R|injection E as <- <- <-; discriminate R].
  destruct (createLines pass cut A (CU _) LE) as [sc AN]. rewrite AN in E. destruct (create C K dK (keysName home) pass iter rK (last l1 s)) as [r2 l2] eqn:C2. destruct r2 as [[]|x|]; [|injection E as <- <- <-; discriminate R|injection E as <- <- <-; discriminate R].
  destruct (C98_opens_partial _ _ _ _ _ _ _ _ _ C2) as (kK & _ & OK'). injection E as <- <- <-. destruct (names_apart2 home) as (N1 & N2 & N3 & N4). split.
  - exists kM, kK. split; [|exact OK']. etransitivity; [|exact OM]. apply openDB_cong; apply (create_frame _ _ _ _ _ _ _ _ _ _ _ C2); congruence.
  - cbn [setStore tStore kWallet kConf tFile]. split; [destruct opt; reflexivity|]. apply fetch_step in F as (_ & _ & [(_ & Q & _)|((t & ST & _) & _ & _ & OKF)]); [contradiction Q; reflexivity|]. destruct (OKF eq_refl) as [_ FI]. eexists. rewrite ST. split; [reflexivity|exact FI].
Qed.
(* what mutecrypt read is the passphrase of its database, whatever the passphrase of the messages is *)
Theorem C145_keys : forall C K L P dM dK home iter rM rK e cut opt key pass k s r k' s', ctrlCreate C K L P dM dK home iter rM rK e cut opt key pass k s = (r, k', s') -> is_ok r = true ->
  exists pass' rest kK, askNew (cut (createInput pass)) = Ok (pass', rest) /\ openDB C K (keysName home) pass' s' = Ok kK.
Proof.
  intros C K L P dM dK home iter rM rK e cut opt key pass k s r k' s' E R. unfold ctrlCreate in E. destruct (create C K dM (msgsName home) pass iter rM s) as [r1 l1]. destruct r1 as [[]|x|]; [|injection E as <- <- <-; discriminate R|injection E as <- <- <-; discriminate R].
  destruct (openDB C K (msgsName home) pass (last l1 s)); [|injection E as <- <- <-; discriminate R|injection E as <- <- <-; discriminate R]. destruct (fetchconf C L P e k) as [rf kf]. destruct rf as [[]|x|]; [|injection E as <- <- <-; discriminate R|injection E as <- <- <-; discriminate R].
  destruct (askNew (cut (createInput pass))) as [[pass' rest]|x|]; [|injection E as <- <- <-; discriminate R|injection E as <- <- <-; discriminate R]. destruct (create C K dK (keysName home) pass' iter rK (last l1 s)) as [r2 l2] eqn:C2. destruct r2 as [[]|x|]; [|injection E as <- <- <-; discriminate R|injection E as <- <- <-; discriminate R].
  destruct (C98_opens_partial _ _ _ _ _ _ _ _ _ C2) as (kK & _ & OK'). injection E as <- <- <-. exists pass', rest, kK. split; [reflexivity|exact OK'].
Qed.
(* If the configuration cannot be fetched, db create has created the messages database only: it can not be repeated, with any arguments, and
   there is no database for the keys. *)
Theorem C145_stuck : forall C K L P dM home iter rM e pass k s l, mget (dbFile (keysName home)) s = None ->
  create C K dM (msgsName home) pass iter rM s = (Ok tt, l) -> is_ok (fst (fetchconf C L P e k)) = false ->
  forall dK rK cut opt key, exists r k' s', ctrlCreate C K L P dM dK home iter rM rK e cut opt key pass k s = (r, k', s') /\ is_ok r = false /\ is_ok (openDB C K (msgsName home) pass s') = true /\
    (forall p, is_ok (openDB C K (keysName home) p s') = false) /\
    forall dM2 dK2 iter2 rM2 rK2 e2 cut2 opt2 key2 pass2 k2, exists x, ctrlCreate C K L P dM2 dK2 home iter2 rM2 rK2 e2 cut2 opt2 key2 pass2 k2 s' = (Err x, k2, s').
Proof.
  intros C K L P dM home iter rM e pass k s l NK C1 NF dK rK cut opt key. unfold ctrlCreate at 1. rewrite C1. destruct (C98_opens_partial _ _ _ _ _ _ _ _ _ C1) as (kM & _ & OM). rewrite OM. destruct (fetchconf C L P e k) as [rf kf]. cbn [fst] in NF.
  destruct (names_apart2 home) as (N1 & N2 & _ & _).
  assert (Z : (forall p, is_ok (openDB C K (keysName home) p (last l s)) = false) /\ forall dM2 dK2 iter2 rM2 rK2 e2 cut2 opt2 key2 pass2 k2, exists x, ctrlCreate C K L P dM2 dK2 home iter2 rM2 rK2 e2 cut2 opt2 key2 pass2 k2 (last l s) = (Err x, k2, last l s)).
  { split; [intros p; unfold openDB; rewrite (create_frame _ _ _ _ _ _ _ _ _ _ _ C1 N1 N2), NK; reflexivity|]. intros. unfold ctrlCreate. destruct (C98_keeps_partial C K dM2 (msgsName home) pass2 iter2 rM2 _ _ _ OM) as [x ->]. exists x. reflexivity. }
  destruct rf as [[]|x|]; [discriminate NF| |]; do 3 eexists; (split; [reflexivity|]); (split; [reflexivity|]); (split; [rewrite OM; reflexivity|exact Z]).
Qed.
Definition exHm : bytes := str "/home".
Definition exMake (e : env) (s : fs) := ctrlCreate toy toyKdf noLib exProg goodDisk goodDisk exHm 1 exRnd (rev exRnd) e (fun x => [x]) [] (map N.of_nat (seq 0 64)) (str "pass") exNew s.
Example C145_stuck_ex : mget (dbFile (keysName exHm)) ([] : fs) = None /\ is_ok (fst (create toy toyKdf goodDisk (msgsName exHm) (str "pass") 1 exRnd [])) = true /\ is_ok (fst (fetchconf toy noLib exProg (exDown 1000000) exNew)) = false.
Proof. split; [reflexivity|]. split; vm_compute; reflexivity. Qed.
Example C145_success_ex : exists r k' s', exMake (exEnv 1000000 2 (exRel exFull)) [] = (r, k', s') /\ is_ok r = true /\ isLine (str "pass") /\ lenN (createInput (str "pass")) <= 2048.
Proof.
  do 3 eexists. split; [vm_compute; reflexivity|]. split; [reflexivity|]. split; [|vm_compute; discriminate]. split; [vm_compute; intuition discriminate|]. intros b Q. apply (f_equal (@rev N)) in Q. rewrite rev_app_distr in Q. vm_compute in Q. discriminate Q.
Qed.
(* no network at the first attempt: the second attempt, with everything working, fails *)
Theorem C145_refuted : exists C K L P home iter rM rK bad good cut key pass k k' s' x, ctrlCreate C K L P goodDisk goodDisk home iter rM rK bad cut [] key pass k [] = (Err x, k', s') /\
  ctrlCreate C K L P goodDisk goodDisk home iter rM rK good cut [] key pass k s' = (Err "encdb: dbfile exists already", k, s') /\ is_ok (fst (fst (ctrlCreate C K L P goodDisk goodDisk home iter rM rK good cut [] key pass k []))) = true.
Proof.
  exists toy, toyKdf, noLib, exProg, exHm, 1%Z, exRnd, (rev exRnd), (exDown 1000000), (exEnv 1000000 2 (exRel exFull)), (fun x => [x]), (map N.of_nat (seq 0 64)), (str "pass"), exNew. do 3 eexists. split; [vm_compute; reflexivity|]. split; vm_compute; reflexivity.
Qed.

(* ---------------- C146: who gets the pages of the app ---------------- *)
(* the cookie that was handed out last *)
Fixpoint lastCookie (rs : list response) : option bytes :=
  match rs with [] => None | r :: rs => match lastCookie rs, r with Some v, _ => Some v | None, RRedirect v => Some v | None, _ => None end end.
Lemma secret_last C L P opens off l : forall a, pSecret (snd (answers C L P opens off l a)) = match lastCookie (fst (answers C L P opens off l a)) with Some v => v | None => pSecret a end.
Proof.
  induction l as [|q l IH]; intros a; [reflexivity|]. cbn [answers]. destruct (answer C L P opens off q a) as [r a1] eqn:A. specialize (IH a1). destruct (answers C L P opens off l a1) as [rs a2]. cbn [fst snd lastCookie] in *. rewrite IH. destruct (lastCookie rs) as [v|]; [reflexivity|].
  unfold answer in A. destruct q as [|fields e rnd|v]; [injection A as <- <-; reflexivity| |].
  - destruct fields as [|p ps]; [injection A as <- <-; reflexivity|]. destruct (prepare _ _ _ _ _ _ _ _ _) as [[rp kp] np]. destruct rp as [[]|x|]; [|injection A as <- <-; reflexivity|injection A as <- <-; reflexivity]. destruct (randPass rnd); injection A as <- <-; reflexivity.
  - destruct v as [v|]; [|injection A as <- <-; reflexivity]. destruct (negb _ && _); injection A as <- <-; reflexivity.
Qed.
(* With any requests before: a request with a cookie that is not empty gets a page exactly if the value is the one handed out by the
   last successful login.  Missing: the empty cookie. *)
Theorem C146_cookie_partial : forall C L P opens off l k v, v <> [] ->
  fst (answer C L P opens off (QPage (Some v)) (snd (answers C L P opens off l (mkApp k [])))) = RPage <-> lastCookie (fst (answers C L P opens off l (mkApp k []))) = Some v.
Proof.
  intros C L P opens off l k v NE. cbn [answer]. rewrite (secret_last C L P opens off l (mkApp k [])). cbn [pSecret]. assert (B0 : beq v [] = false) by (apply beq_neq; exact NE). rewrite B0. cbn [negb andb]. destruct (lastCookie _) as [w|].
  - destruct (beq v w) eqn:B; cbn [negb fst]; [apply beq_spec in B; subst w; split; reflexivity|]. apply beq_neq in B. split; [discriminate|congruence].
  - rewrite B0. cbn [negb fst]. split; discriminate.
Qed.
(* exactly which requests get a page *)
Theorem C146_exact : forall C L P opens off l k c, fst (answer C L P opens off (QPage c) (snd (answers C L P opens off l (mkApp k [])))) = RPage <->
  c = Some [] \/ exists v, c = Some v /\ lastCookie (fst (answers C L P opens off l (mkApp k []))) = Some v.
Proof.
  intros C L P opens off l k [v|]; [|cbn [answer fst]; split; [discriminate|intros [H|(v & H & _)]; discriminate H]]. destruct v as [|b v].
  - split; [intros _; left; reflexivity|reflexivity].
  - rewrite C146_cookie_partial by discriminate. split; [intros H; right; eauto|]. intros [H|(w & H & H')]; [discriminate H|]. injection H as <-. exact H'.
Qed.
(* what is handed out: 32 random bytes in base64 *)
Theorem C146_secret : forall C L P opens off q a v, fst (answer C L P opens off q a) = RRedirect v -> exists p ps e rnd, q = QLogin (p :: ps) e rnd /\ 32 <= lenN rnd /\ v = b64enc (takeN 32 rnd) /\ lenN v = 44.
Proof.
  intros C L P opens off q a v E. unfold answer in E. destruct q as [|fields e rnd|c]; [discriminate E| |destruct c as [c|]; [destruct (negb _ && _); discriminate E|discriminate E]]. destruct fields as [|p ps]; [discriminate E|]. exists p, ps, e, rnd. split; [reflexivity|].
  destruct (prepare _ _ _ _ _ _ _ _ _) as [[rp kp] np]. destruct rp as [[]|x|]; [|discriminate E|discriminate E]. unfold randPass in E. destruct (lenN rnd <? 32) eqn:LR; [discriminate E|]. injection E as <-. split; [lia|]. split; [reflexivity|]. rewrite lenN_b64enc, lenN_takeN. replace (N.min 32 (lenN rnd)) with 32 by lia. reflexivity.
Qed.
(* everybody gets the pages with an empty cookie, before any login *)
Theorem C146_empty : forall C L P opens off a, answer C L P opens off (QPage (Some [])) a = (RPage, a).
Proof. reflexivity. Qed.
Theorem C146_refuted : exists C L P opens off k, tOpen k = false /\ fst (answers C L P opens off [QPage (Some [])] (mkApp k [])) = [RPage] /\ lastCookie (fst (answers C L P opens off [QPage (Some [])] (mkApp k []))) = None.
Proof. exists toy, noLib, exProg, exOpens, false, exNew. repeat split. Qed.
Definition exLogin (p : String.string) (e : env) (seed : N) : request := QLogin [str p] e (repeat seed 32).
Arguments exLogin p%string e seed.
Definition exGood : env := exEnv 1000000 2 (exRel exFull).
Definition exReq : list request := [QForm; QPage (Some (str "x")); exLogin "wrong" exGood 1; exLogin "pass" exGood 2; QPage (Some (b64enc (repeat 2 32))); QLogin [] exGood []; exLogin "pass" exGood 3; QPage (Some (b64enc (repeat 2 32))); QPage None].
Example C146_ex : fst (answers toy noLib exProg exOpens false exReq (mkApp exNew [])) = [RForm; RForbidden; RForbidden; RRedirect (b64enc (repeat 2 32)); RPage; RPanic; RRedirect (b64enc (repeat 3 32)); RForbidden; RForbidden].
Proof. vm_compute. reflexivity. Qed.

(* ---------------- C147: who can log in ---------------- *)
(* while the database is closed only its passphrase logs in.  Missing: later logins. *)
Theorem C147_first_partial : forall C L P opens off p ps e rnd a v a', tOpen (pCtrl a) = false -> answer C L P opens off (QLogin (p :: ps) e rnd) a = (RRedirect v, a') -> opens p = true /\ tOpen (pCtrl a') = true.
Proof.
  intros C L P opens off p ps e rnd a v a' TO E. cbn [answer] in E. destruct (prepare _ _ _ _ _ _ _ _ _) as [[rp kp] np] eqn:PR. destruct rp as [[]|x|]; [|discriminate E|discriminate E]. destruct (randPass rnd); [|discriminate E|discriminate E]. injection E as _ <-. cbn [pCtrl].
  apply prepare_step in PR as [(Q & _)|(k1 & r0 & n0 & n1 & _ & _ & _ & _ & T1 & _ & OP & G & _)]; [contradiction Q; reflexivity|]. destruct (OP TO) as (pp & _ & O & SP). assert (pp = Some p) as -> by (apply SP; discriminate). split; [exact O|]. apply getConf_step in G as (TO' & _). congruence.
Qed.
Example C147_first_ex : exists v a', answer toy noLib exProg exOpens false (exLogin "pass" exGood 2) (mkApp exNew []) = (RRedirect v, a').
Proof. do 2 eexists. vm_compute. reflexivity. Qed.
Lemma fetch_pass C L P e k p : fetchconf C L P e (setPass k p) = (fst (fetchconf C L P e k), setPass (snd (fetchconf C L P e k)) p).
Proof.
  unfold fetchconf. cbn [setPass tCfg]. destruct (update _ _ _ _ _) as [r c]. destruct r as [[]|x|]; [|reflexivity|reflexivity]. destruct (vAdds e) as [|[|n]]; [reflexivity|reflexivity|]. cbn [setStore setCfg setPass tStore tSet]. destruct (initMute c (tSet k)) as [r g]. destruct r as [[]|x|]; [|reflexivity|reflexivity]. destruct (vWrite e); reflexivity.
Qed.
Lemma getConf_pass C L P off e k p : getConf C L P off e (setPass k p) = let '(r, k', n) := getConf C L P off e k in (r, setPass k' p, n).
Proof.
  unfold getConf. cbn [setPass tStore tCfg tSet]. destruct (kConf (tStore k)) as [s|].
  - destruct (initMute _ _) as [r g]. assert (F : fetchconf C L P e (setSet (setCfg (setPass k p) (unmarshal s (tCfg k))) g) = (fst (fetchconf C L P e (setSet (setCfg k (unmarshal s (tCfg k))) g)), setPass (snd (fetchconf C L P e (setSet (setCfg k (unmarshal s (tCfg k))) g))) p)) by (rewrite <- fetch_pass; reflexivity).
    destruct (fetchconf C L P e (setSet (setCfg k (unmarshal s (tCfg k))) g)) as [rf kf]. cbn [fst snd] in F.
    destruct r as [[]|x|]; [|destruct off; [reflexivity|rewrite F; reflexivity]|reflexivity]. change (tStore (setSet (setCfg (setPass k p) (unmarshal s (tCfg k))) g)) with (tStore k). change (tStore (setSet (setCfg k (unmarshal s (tCfg k))) g)) with (tStore k). destruct (kTime (tStore k)) as [|c t]; [reflexivity|]. destruct (parseInt (c :: t)) as [z|]; [|reflexivity]. destruct (minAge <? _)%Z; [|reflexivity]. destruct off; [destruct (maxAgeOffline <? _)%Z; reflexivity|]. rewrite F. reflexivity.
  - destruct off; [reflexivity|]. fold (setPass k p). rewrite fetch_pass. destruct (fetchconf C L P e k). reflexivity.
Qed.
(* Once the database is open, any passphrase logs in whenever the right one does, and it replaces the one that is kept for the programs
   started later. *)
Theorem C147_any : forall C L P opens off p q ps e rnd a, tOpen (pCtrl a) = true -> fst (answer C L P opens off (QLogin (p :: ps) e rnd) a) = fst (answer C L P opens off (QLogin (q :: ps) e rnd) a) /\
  tPass (pCtrl (snd (answer C L P opens off (QLogin (q :: ps) e rnd) a))) = Some q.
Proof.
  intros C L P opens off p q ps e rnd a TO.
  assert (PR : forall x, prepare C L P opens true true off e (setPass (pCtrl a) x) = let '(r, k', n) := prepare C L P opens true true off e (pCtrl a) in (r, setPass k' x, n)).
  { intros x. unfold prepare. cbn [negb]. cbn [setPass tOpen]. rewrite TO. fold (setPass (pCtrl a) x). rewrite getConf_pass. destruct (getConf C L P off e (pCtrl a)) as [[r k'] n]. destruct r as [[]|y|]; [|reflexivity|reflexivity]. cbn [setPass tCfg]. fold (setPass k' x).
    destruct (checkUpdates P (tCfg k')); [|reflexivity|reflexivity]. assert (W : startWallet off e (setPass k' x) = startWallet off e k') by reflexivity. rewrite W. destruct (startWallet off e k'). reflexivity. }
  cbn [answer]. rewrite !PR. destruct (prepare C L P opens true true off e (pCtrl a)) as [[r k'] n]. destruct r as [[]|x|]; [|split; reflexivity|split; reflexivity]. destruct (randPass rnd); split; reflexivity.
Qed.
Theorem C147_refuted : exists C L P opens off k good wrong e1 e2 r1 r2 v1 v2 a, opens good = true /\ opens wrong = false /\
  answers C L P opens off [QLogin [good] e1 r1; QLogin [wrong] e2 r2] (mkApp k []) = ([RRedirect v1; RRedirect v2], a) /\ tPass (pCtrl a) = Some wrong.
Proof.
  exists toy, noLib, exProg, exOpens, false, exNew, (str "pass"), (str "wrong"), exGood, (exDown 1000001), (repeat 1 32), (repeat 2 32). do 3 eexists. split; [reflexivity|]. split; [reflexivity|]. split; vm_compute; reflexivity.
Qed.
(* the right passphrase at a moment when the configuration can not be fetched opens the database but does not log in; after that anything does *)
Theorem C147_failed_refuted : exists C L P opens off k good wrong e1 e2 r1 r2 v a, opens good = true /\ opens wrong = false /\
  answers C L P opens off [QLogin [good] e1 r1; QLogin [wrong] e2 r2] (mkApp k []) = ([RForbidden; RRedirect v], a).
Proof.
  exists toy, noLib, exProg, exOpens, false, exFetched, (str "pass"), (str "wrong"), (mkEnv 1000001 down 2 true false (Ok None)), (exDown 1000002), (repeat 1 32), (repeat 2 32). do 2 eexists. split; [reflexivity|]. split; [reflexivity|]. vm_compute. reflexivity.
Qed.
(* before the first login with the passphrase: however many other requests there are, nobody is logged in and the database stays closed *)
Definition wrongLogin (opens : bytes -> bool) (q : request) : Prop := match q with QLogin (p :: _) _ _ => opens p = false | _ => True end.
Theorem C147_before : forall C L P opens off l k secret, tOpen k = false -> Forall (wrongLogin opens) l ->
  let (rs, a) := answers C L P opens off l (mkApp k secret) in tOpen (pCtrl a) = false /\ pSecret a = secret /\ (forall v, ~ In (RRedirect v) rs) /\ tStore (pCtrl a) = tStore k.
Proof.
  intros C L P opens off l k secret TO F. revert k TO. induction F as [|q l Q F IH]; intros k TO; [cbn; auto|]. cbn [answers].
  assert (A : exists r k', answer C L P opens off q (mkApp k secret) = (r, mkApp k' secret) /\ tOpen k' = false /\ tStore k' = tStore k /\ forall v, r <> RRedirect v).
  { destruct q as [|fields e rnd|c].
    - exists RForm, k. repeat split; [assumption|discriminate].
    - destruct fields as [|p ps]; [exists RPanic, k; repeat split; [assumption|discriminate]|]. cbn [wrongLogin] in Q. cbn [answer pCtrl pSecret]. unfold prepare. cbn [negb setPass tOpen]. rewrite TO. unfold openMsgDB. cbn [tPass setPass]. cbv iota beta zeta. rewrite Q.
      exists RForbidden. eexists. split; [reflexivity|]. repeat split. discriminate.
    - destruct c as [c|]; cbn [answer pSecret]; [|exists RForbidden, k; repeat split; [assumption|discriminate]]. destruct (negb (beq c []) && negb (beq c secret)); [exists RForbidden, k|exists RPage, k]; repeat split; try assumption; discriminate. }
  destruct A as (r & k' & -> & TO' & ST & NR). specialize (IH k' TO'). destruct (answers C L P opens off l (mkApp k' secret)) as [rs a]. destruct IH as (H1 & H2 & H3 & H4). split; [exact H1|]. split; [exact H2|]. split; [|congruence].
  intros v [I|I]; [exact (NR v I)|exact (H3 v I)].
Qed.
Example C147_before_ex : Forall (wrongLogin exOpens) [QForm; QPage (Some []); exLogin "wrong" exGood 1; exLogin "" exGood 2; QLogin [] exGood []] /\
  fst (answers toy noLib exProg exOpens false [QForm; QPage (Some []); exLogin "wrong" exGood 1; exLogin "" exGood 2; QLogin [] exGood []] (mkApp exNew [])) = [RForm; RPage; RForbidden; RForbidden; RPanic].
Proof. split; [repeat constructor|vm_compute; reflexivity]. Qed.
(* a new process knows no passphrase: every command opens the database with the one that is read, whatever was given to the old process *)
Theorem C147_restart : forall C L P opens check off g e k k' n, prepare C L P opens true check off e (restart g k) = (Ok tt, k', n) ->
  exists p, vRead e = Ok p /\ opens (match p with Some p => p | None => [] end) = true.
Proof.
  intros C L P opens check off g e k k' n E. unfold prepare, restart, openMsgDB in E. cbn [negb tOpen tPass] in E. destruct (vRead e) as [p|x|]; [|discriminate E|discriminate E]. exists p. split; [reflexivity|].
  cbv zeta in E. destruct (opens (match p with Some p => p | None => [] end)); [reflexivity|]. discriminate E.
Qed.
(* a login form without the field crashes the handler and changes nothing *)
Theorem C147_missing : forall C L P opens off e rnd a, answer C L P opens off (QLogin [] e rnd) a = (RPanic, a).
Proof. reflexivity. Qed.

Print Assumptions C145_success_partial.
Print Assumptions C145_keys.
Print Assumptions C145_stuck.
Print Assumptions C146_exact.
Print Assumptions C147_before.
Print Assumptions C147_restart.
Print Assumptions C145_refuted.
Print Assumptions C146_cookie_partial.
Print Assumptions C146_secret.
Print Assumptions C146_empty.
Print Assumptions C146_refuted.
Print Assumptions C147_first_partial.
Print Assumptions C147_any.
Print Assumptions C147_refuted.
Print Assumptions C147_failed_refuted.
Print Assumptions C147_missing.
