(* Properties C163-C164: the key store of the program, and how long a session lasts on it. *)
From Verif Require Import Base Base64Model CodecModel IdentityModel IdentityProofs JsonModel Maps CryptoModel StoreModel KeysModel KeysProofs MsgFormatModel HeaderModel ProtoModel ProtoProofs ProtoFirst SqlModel SqlProofs KeyDBModel KeyDBProofs PropsKeyDB ConvModel ConvRun ConvToy ConvExample ConvCross KeystoreModel KeystoreProofs KeystoreLimit.
Local Open Scope N_scope.

(* ------------------------------ C163 ------------------------------ *)
(* The calls a user makes: Encrypt, Decrypt, and whatever changes the KeyInit messages at hand. *)
Inductive call := CEncrypt (a : encArgs) (r : encRnd) | CDecrypt (a : decArgs) (msg : bytes) | CEntries (priv pub : map_ (keyEntry * bytes)).
Inductive answer := AEnc (r : res bytes) (out : bytes) | ADec (r : res (bytes * bytes)) (out : bytes).
Definition sameAnswer (x y : answer) : Prop :=
  match x, y with
  | AEnc r o, AEnc r' o' => agree r r' /\ o = o'
  | ADec r o, ADec r' o' => agree r r' /\ o = o'
  | _, _ => False
  end.
Definition setEntries (p q : map_ (keyEntry * bytes)) (st : store) : store := mkStore p q (states st) (sessions st) (skeys st).
Fixpoint memAnswers (C : Crypto) (cs : list call) (st : store) : list answer :=
  match cs with
  | [] => []
  | CEncrypt a r :: cs' => let (x, w) := run (encrypt C a r) st in AEnc x (wOut w) :: memAnswers C cs' (wStore w)
  | CDecrypt a m :: cs' => let (x, w) := run (receive C a m) st in ADec x (wOut w) :: memAnswers C cs' (wStore w)
  | CEntries p q :: cs' => memAnswers C cs' (setEntries p q st)
  end.
(* on the key database; every call on a new connection (true) or on the one before (false) *)
Definition conn (fresh : bool) (w : dbw) : dbw := if fresh then newConn w else mkDBW (bPriv w) (bPub w) (bDB w) [].
Fixpoint dbAnswers (C : Crypto) (cs : list (bool * call)) (w : dbw) : list answer :=
  match cs with
  | [] => []
  | (f, CEncrypt a r) :: cs' => let (x, w') := encryptDB C a r (conn f w) in AEnc x (bOut w') :: dbAnswers C cs' w'
  | (f, CDecrypt a m) :: cs' => let (x, w') := receiveDB C a m (conn f w) in ADec x (bOut w') :: dbAnswers C cs' w'
  | (f, CEntries p q) :: cs' => dbAnswers C cs' (mkDBW p q (bDB w) [])
  end.
(* no call stores a session or a session key twice, or a number that does not fit *)
Fixpoint cleanCalls (C : Crypto) (cs : list call) (st : store) : Prop :=
  match cs with
  | [] => True
  | CEncrypt a r :: cs' => let w := snd (run (encrypt C a r) st) in clean st (wTrace w) /\ cleanCalls C cs' (wStore w)
  | CDecrypt a m :: cs' => let w := snd (run (receive C a m) st) in clean st (wTrace w) /\ cleanCalls C cs' (wStore w)
  | CEntries p q :: cs' => cleanCalls C cs' (setEntries p q st)
  end.
(* the two stores hold the same KeyInit messages and nothing else *)
Definition bothEmpty (st : store) (w : dbw) : Prop :=
  states st = [] /\ sessions st = [] /\ skeys st = [] /\ bPriv w = privKEs st /\ bPub w = pubKEs st /\
  kSess (bDB w) = [] /\ kKeys (bDB w) = [] /\ kStates (bDB w) = [] /\ kSKeys (bDB w) = [].

Lemma idsOk_nil {A} : idsOk (@nil (N * A)).
Proof. split; constructor. Qed.
Lemma relS_empty st w : bothEmpty st w -> relS st w.
Proof.
  intros (A & B & D & E & F & G1 & G2 & G3 & G4). split; try assumption.
  - exists []. split; [|intros sk; rewrite B; reflexivity]. apply (sInv_same emptyKDB); [apply sInv_empty|exact G1|exact G2].
  - intros sk. unfold dbSession. rewrite G1, B. reflexivity.
  - intros sk s. rewrite B. discriminate.
  - rewrite G3. apply idsOk_nil.
  - intros k. unfold stRead. rewrite G3, A. reflexivity.
  - rewrite G4. apply idsOk_nil.
  - intros h _. unfold skRead. rewrite G4, D. reflexivity.
  - rewrite D. reflexivity.
Qed.
Lemma relS_conn st w f : relS st w -> relS st (conn f w).
Proof.
  intros [A B (m & S1 & S2) D E F G1 H J K]. destruct f; split; try assumption; try (exists m; split; [|exact S2]; apply (sInv_same (bDB w)); [exact S1|reflexivity|reflexivity]).
Qed.
Lemma relS_entries st w p q : relS st w -> relS (setEntries p q st) (mkDBW p q (bDB w) []).
Proof. intros [A B D D' E F G1 H J K]. split; try assumption; reflexivity. Qed.
Lemma sim_run {A} (m1 : G world A) m2 st w f : sim TT m1 m2 T1 -> relS st w -> clean st (wTrace (snd (run m1 st))) ->
  agree (fst (run m1 st)) (fst (m2 (conn f w))) /\ wOut (snd (run m1 st)) = bOut (snd (m2 (conn f w))) /\ relS (wStore (snd (run m1 st))) (snd (m2 (conn f w))).
Proof.
  intros [_ S] R CL. unfold run in *. destruct (m1 (mkWorld st [] [])) as [r1 w1] eqn:E. cbn [fst snd] in *.
  assert (RL : rel (mkWorld st [] []) (conn f w)) by (split; [apply relS_conn, R|destruct f; reflexivity]).
  destruct (S _ _ _ _ (wTrace w1) RL I E eq_refl CL) as (r2 & w2 & E2 & AG & [R2 O2] & _). rewrite E2. cbn [fst snd]. auto.
Qed.
Lemma answers_same C cs : forall st w, relS st w -> cleanCalls C (map snd cs) st ->
  Forall2 sameAnswer (memAnswers C (map snd cs) st) (dbAnswers C cs w).
Proof.
  induction cs as [|[f [a r|a m|p q]] cs IH]; intros st w R CL; cbn [map snd memAnswers dbAnswers cleanCalls] in *; [constructor| | |].
  - destruct CL as [CL CL2]. pose proof (sim_run _ _ st w f (sim_encrypt C a r) R CL) as (AG & O & R2). rewrite encryptG_mem in *.
    change (encryptG C dbw dbKS a r) with (encryptDB C a r) in *. destruct (run (encrypt C a r) st) as [x w1]. destruct (encryptDB C a r (conn f w)) as [y w2]. cbn [fst snd] in *.
    constructor; [split; assumption|]. apply IH; assumption.
  - destruct CL as [CL CL2]. pose proof (sim_run _ _ st w f (sim_receive C a m) R CL) as (AG & O & R2). rewrite receiveG_mem in *.
    change (receiveG C dbw dbKS a m) with (receiveDB C a m) in *. destruct (run (receive C a m) st) as [x w1]. destruct (receiveDB C a m (conn f w)) as [y w2]. cbn [fst snd] in *.
    constructor; [split; assumption|]. apply IH; assumption.
  - apply IH; [apply relS_entries, R|exact CL].
Qed.
(* For any crypto, any sequence of calls, any use of connections: as long as no session is extended, the key database answers like
   the in-memory store of the tests. *)
Theorem C163_partial : forall C cs st w, bothEmpty st w -> cleanCalls C (map snd cs) st ->
  Forall2 sameAnswer (memAnswers C (map snd cs) st) (dbAnswers C cs w).
Proof. intros C cs st w E CL. apply answers_same; [apply relS_empty, E|exact CL]. Qed.

(* ------------------------------ C164 ------------------------------ *)
(* messages sent one after the other, each by a process of its own *)
Fixpoint sendAll (C : Crypto) (l : list (encArgs * encRnd)) (w : dbw) : list (res bytes * bytes) :=
  match l with
  | [] => []
  | (a, r) :: l' => let (x, w') := encryptDB C a r (newConn w) in (x, bOut w') :: sendAll C l' w'
  end.
Definition sentOk (l : list (res bytes * bytes)) : N := lenN (filter (fun x => isOk (fst x)) l).
(* if a message proposes a new session at all, then one of the next k messages does *)
Definition early (k : N) (l : list bool) : Prop := existsb id l = true -> existsb id (firstn (N.to_nat k) l) = true.
Lemma early_tl k b l : early k (b :: l) -> b = false -> early (k - 1) l.
Proof.
  unfold early. intros H -> E. cbn [existsb id orb] in H. specialize (H E). destruct (N.to_nat k) as [|j] eqn:K; [discriminate H|].
  cbn [firstn existsb id orb] in H. replace (N.to_nat (k - 1)) with j by lia. exact H.
Qed.
Lemma firstn_more {A} (p : A -> bool) l : forall i j, (i <= j)%nat -> existsb p (firstn i l) = true -> existsb p (firstn j l) = true.
Proof.
  induction l as [|x l IH]; intros [|i] [|j] L H; cbn [firstn existsb] in *; try discriminate H; try lia.
  apply orb_prop in H as [H|H]; [rewrite H; reflexivity|]. rewrite (IH i j) by (assumption || lia). apply orb_true_r.
Qed.
Lemma early_more k k' l : k <= k' -> early k l -> early k' l.
Proof. intros L H E. apply (firstn_more id l (N.to_nat k)); [lia|apply H, E]. Qed.
Lemma early_true k l : early k (true :: l) -> 0 < k.
Proof. intros H. specialize (H eq_refl). destruct (N.to_nat k) eqn:K; [discriminate H|lia]. Qed.
Section C164.
Variable C : Crypto.
Variables (fk tk : keyEntry) (fp tp : bytes).
Hypothesis FP : pub32 fk = Ok fp.
Hypothesis TP : pub32 tk = Ok tp.
Lemma sendAll_limit n l : forall ss w, upTo C fk tk fp tp n ss w -> stMsgCount ss <= n -> Forall (fun x => sendTo fk tk (fst x) (snd x)) l ->
  stNextSender ss <> None \/ early (n - stMsgCount ss) (map flips l) ->
  sentOk (sendAll C l w) <= n - stMsgCount ss /\ Forall (fun x => isOk (fst x) = false -> snd x = []) (sendAll C l w).
Proof.
  induction l as [|[a r] l IH]; intros ss w U LE F EA; cbn [sendAll]; [split; [change (sentOk []) with 0; lia|constructor]|].
  inversion F as [|? ? S F']; subst. cbn [fst snd] in S. destruct (encryptDB C a r (newConn w)) as [x w'] eqn:E.
  assert (CN : flips (a, r) = false \/ stNextSender ss <> None \/ stMsgCount ss < n).
  { destruct EA as [EA|EA]; [auto|]. destruct (flips (a, r)) eqn:FL; [|auto]. right. right. cbn [map] in EA. rewrite FL in EA. apply early_true in EA. lia. }
  destruct (send_step C fk tk fp tp FP TP n ss w a r x w' U S CN LE E) as (ss1 & C1 & C2 & C3 & D).
  assert (MC : stMsgCount ss1 = stMsgCount ss) by (destruct C1 as [->|[k ->]]; reflexivity).
  assert (EA1 : stNextSender ss1 <> None \/ early (n - stMsgCount ss - 1) (map flips l)).
  { destruct EA as [EA|EA]; [left; rewrite (C3 EA); exact EA|]. destruct (flips (a, r)) eqn:FL; [left; apply C2; reflexivity|].
    right. cbn [map] in EA. rewrite FL in EA. apply (early_tl _ _ _ EA eq_refl). }
  destruct D as [(OK & LT & V)|(OK & O & V)].
  - destruct (IH (advanced ss1) w' V) as [B1 B2]; [cbn [advanced stMsgCount]; lia|exact F'| |].
    { cbn [advanced stNextSender stMsgCount]. rewrite MC. destruct EA1 as [EA1|EA1]; [left; exact EA1|right]. apply (early_more (n - stMsgCount ss - 1)); [lia|exact EA1]. }
    cbn [advanced stMsgCount] in B1. split.
    + unfold sentOk in *. cbn [filter fst]. rewrite OK, lenN_cons. lia.
    + constructor; [cbn [fst]; rewrite OK; discriminate|exact B2].
  - destruct (IH ss1 w' V) as [B1 B2]; [lia|exact F'| |].
    { rewrite MC. destruct EA1 as [EA1|EA1]; [left; exact EA1|right]. apply (early_more (n - stMsgCount ss - 1)); [lia|exact EA1]. }
    rewrite MC in B1. split.
    + unfold sentOk in *. cbn [filter fst]. rewrite OK. exact B1.
    + constructor; [intros _; exact O|exact B2].
Qed.
End C164.
(* The first message of a session stores n keys (50 by default); whatever the two parties' calls are afterwards, at most n messages of
   the session leave, and a call that fails writes nothing. *)
Theorem C164_limit : forall C fk tk fp tp a r w nym w' l,
  pub32 fk = Ok fp -> pub32 tk = Ok tp -> starts C fk tk fp tp a r w -> encryptDB C a r (newConn w) = (Ok nym, w') ->
  Forall (fun x => sendTo fk tk (fst x) (snd x)) l -> early (numKeys (eNumKeys a) - 1) (map flips l) ->
  sentOk (sendAll C ((a, r) :: l) w) <= numKeys (eNumKeys a) /\
  Forall (fun x => isOk (fst x) = false -> snd x = []) (sendAll C ((a, r) :: l) w).
Proof.
  intros C fk tk fp tp a r w nym w' l FP TP ST E F EA. destruct (first_step C fk tk fp tp FP TP a r w nym w' ST E) as (ss & C1 & C2 & U).
  pose proof (st_n _ _ _ _ _ _ _ _ ST) as LN.
  destruct (sendAll_limit C fk tk fp tp FP TP _ l ss w' U) as [B1 B2]; [lia|exact F|right; rewrite C1; exact EA|].
  cbn [sendAll]. rewrite E. split.
  - unfold sentOk in *. cbn [filter fst isOk]. rewrite lenN_cons. rewrite C1 in B1. lia.
  - constructor; [discriminate|exact B2].
Qed.
(* once the n keys are used up, nothing is sent in the session any more *)
Theorem C164_blocked : forall C fk tk fp tp n ss w l,
  pub32 fk = Ok fp -> pub32 tk = Ok tp -> upTo C fk tk fp tp n ss w -> stMsgCount ss = n ->
  Forall (fun x => sendTo fk tk (fst x) (snd x)) l -> stNextSender ss <> None \/ Forall (fun x => flips x = false) l ->
  Forall (fun x => isOk (fst x) = false /\ snd x = []) (sendAll C l w).
Proof.
  intros C fk tk fp tp n ss w l FP TP U MC F EA.
  destruct (sendAll_limit C fk tk fp tp FP TP n l ss w U) as [B1 B2]; [lia|exact F| |].
  { destruct EA as [EA|EA]; [left; exact EA|right]. intros E. exfalso. apply existsb_exists in E as (b & IN & E). apply in_map_iff in IN as (y & <- & IN).
    rewrite Forall_forall in EA. unfold id in E. rewrite (EA _ IN) in E. discriminate E. }
  rewrite MC, N.sub_diag in B1. revert B1 B2. generalize (sendAll C l w). intros rs B1 B2. induction B2 as [|[x o] l' H _ IH]; [constructor|]. cbn [fst snd] in *.
  unfold sentOk in B1. cbn [filter fst] in B1. destruct (isOk x) eqn:OK; [exfalso; unfold lenN in B1; cbn [length] in B1; lia|]. constructor; [auto|]. apply IH. exact B1.
Qed.

(* ---- a concrete case: alice writes 51 messages to bob, all with the program's defaults ---- *)
(* the trace of a message in an established session with keys left *)
Lemma quiet C a r st nym w fk tk fp tp ss s : let sk := calcKey C (keHash fk) (keHash tk) (keHash (stSenderPub ss)) (keHash (stRecipTemp ss)) in
  pubKey (idUid (eFrom a)) = Ok fk -> pubKey (eTo a) = Ok tk -> pub32 fk = Ok fp -> pub32 tk = Ok tp -> eStatus a <> StatusReset ->
  mget (calcStateKey C fp tp) (states st) = Some ss -> flips (a, r) = false -> mget sk (sessions st) = Some s -> stMsgCount ss < lenN (sSend s) ->
  run (encrypt C a r) st = (Ok nym, w) ->
  exists out, wTrace w = [OOutput out; ODelMsgKey sk true (stMsgCount ss); OSetState (calcStateKey C fp tp) (bumped ss)] /\ wStore w = applyAll (wTrace w) st.
Proof.
  intros sk F T FP TP NR GS FL GK LT R. unfold run in R. apply encrypt_ok in R as (ss1 & w1 & w2 & hp & sk1 & mk & body & fp1 & tp1 & E).
  pose proof (eo_state _ _ _ _ _ _ _ _ _ _ _ _ _ _ _ E) as ES. unfold encState in ES. rewrite F, T in ES. do 4 rewrite ?lift_bind, ?FP, ?TP in ES.
  apply N.eqb_neq in NR. rewrite NR in ES. erewrite bind_ok in ES by (unfold getSessionState, ask; cbn [wStore]; rewrite GS; reflexivity). cbv beta iota in ES.
  assert (W1 : ss1 = ss /\ w1 = mkWorld st [] []).
  { unfold flips in FL. cbn [fst snd] in FL. destruct (eStatus a =? StatusError); [apply pair_equal_spec in ES as [Q <-]; apply ok_inj, pair_equal_spec in Q as [_ <-]; auto|].
    cbn [negb andb] in FL. rewrite FL in ES.
    destruct (stNextSender ss); apply pair_equal_spec in ES as [Q <-]; apply ok_inj, pair_equal_spec in Q as [_ <-]; auto. }
  destruct W1 as [-> ->]. pose proof (eo_key _ _ _ _ _ _ _ _ _ _ _ _ _ _ _ E) as EK. unfold encKey in EK. rewrite F, T, !lift_bind in EK. fold sk in EK.
  erewrite bind_ok in EK by (apply numMessageKeys_get; cbn [wStore]; exact GK). cbv beta in EK.
  destruct (N.leb_spec (lenN (sSend s)) (stMsgCount ss)); [lia|]. erewrite bind_ok in EK by reflexivity. cbv beta in EK.
  apply mbind_ok in EK as (mk1 & w3 & G1 & G2). unfold mret in G2. apply pair_equal_spec in G2 as [Q <-]. apply ok_inj, pair_equal_spec in Q as [<- _].
  assert (W3 : w3 = mkWorld st [] []) by (unfold getMessageKey in G1; apply pair_equal_spec in G1 as [_ <-]; reflexivity). subst w3.
  pose proof (eo_from _ _ _ _ _ _ _ _ _ _ _ _ _ _ _ E) as EF. rewrite F in EF. cbn [rbind] in EF. rewrite FP in EF. apply ok_inj in EF. subst fp1.
  pose proof (eo_to _ _ _ _ _ _ _ _ _ _ _ _ _ _ _ E) as ET. rewrite T in ET. cbn [rbind] in ET. rewrite TP in ET. apply ok_inj in ET. subst tp1.
  pose proof (eo_end _ _ _ _ _ _ _ _ _ _ _ _ _ _ _ E) as EE. subst w. eexists. rewrite steps_trace, steps_store. cbn [wTrace wStore app]. split; reflexivity.
Qed.
Definition kxCall (i : N) : encArgs * encRnd := (cxArgs true hello 0, cxRnd (5 + 2 * i) (5 + 2 * i + 1) false).
Fixpoint kxCalls (i : N) (k : nat) : list (encArgs * encRnd) := match k with O => [] | S k' => kxCall i :: kxCalls (i + 1) k' end.
Definition enc (x : encArgs * encRnd) : call := CEncrypt (fst x) (snd x).
Definition kxF : keyEntry := initDHKey toyI (cxSec true).
Definition kxT : keyEntry := initDHKey toyI (cxSec false).
Record kxSt (i : N) (st : store) : Prop := {
  kx_ex : exists ss s, mget (calcStateKey toyI (dhpub toyI (cxSec true)) (dhpub toyI (cxSec false))) (states st) = Some ss /\ stMsgCount ss = i /\
    stSessCount ss = 0 /\ stMaxRecv ss = 0 /\
    mget (calcKey toyI (keHash kxF) (keHash kxT) (keHash (stSenderPub ss)) (keHash (stRecipTemp ss))) (sessions st) = Some s /\ lenN (sSend s) = 50 }.
Definition okAnswer (x : answer) : Prop := match x with AEnc (Ok _) _ => True | _ => False end.
Lemma set_nth_len (i : nat) (x : bytes) (l : list bytes) : lenN (set_nth i x l) = lenN l.
Proof. unfold lenN. revert i; induction l as [|y l IH]; intros [|i]; cbn [set_nth length]; try reflexivity. specialize (IH i). lia. Qed.
Lemma kx_next i st nym w : kxSt i st -> i < 50 -> run (encrypt toyI (fst (kxCall i)) (snd (kxCall i))) st = (Ok nym, w) ->
  clean st (wTrace w) /\ kxSt (i + 1) (wStore w).
Proof.
  intros [(ss & s & GS & MC & SC & MR & GK & LN)] LT R. cbn [kxCall fst snd] in R.
  destruct (quiet toyI (cxArgs true hello 0) (cxRnd (5 + 2 * i) (5 + 2 * i + 1) false) st nym w kxF kxT _ _ ss s eq_refl eq_refl (initDHKey_pub32 _ _) (initDHKey_pub32 _ _) ltac:(discriminate) GS eq_refl GK ltac:(lia) R)
    as (out & TR & SW).
  set (sk := calcKey _ _ _ _ _) in *. set (key := calcStateKey _ _ _) in *.
  assert (U : u64 (stMsgCount ss + 1) = i + 1) by (unfold u64; rewrite N.mod_small; lia).
  split.
  - rewrite TR. cbn [clean opClean]. do 2 (split; [exact I|]). split; [|exact I]. cbn [bumped stSessCount stMsgCount stMaxRecv]. rewrite U, SC, MR. lia.
  - rewrite SW, TR. split. unfold applyAll. cbn [fold_left apply_op]. rewrite GK. cbn [states sessions].
    exists (bumped ss), (mkSess (sRoot s) (sChain s) (set_nth (N.to_nat (stMsgCount ss)) [] (sSend s)) (sRecv s)).
    cbn [bumped stSessCount stMsgCount stMaxRecv stSenderPub stRecipTemp sSend]. fold sk. rewrite !mget_mset_same, U, set_nth_len. repeat split; assumption.
Qed.
Lemma kx_send i c : 5 + 2 * i < 200 -> cxAt (5 + 2 * i) c -> exists nym w c', run (encrypt toyI (fst (kxCall i)) (snd (kxCall i))) (cStore c true) = (Ok nym, w) /\
  cxAt (5 + 2 * (i + 1)) c' /\ cStore c' true = wStore w.
Proof.
  intros L A. destruct (cx_send_st 0 (5 + 2 * i) c true false ltac:(lia) L A) as (m & c' & (_ & _ & _ & nym & w & R & _ & EC) & A' & _).
  exists nym, w, c'. split; [exact R|]. split; [replace (5 + 2 * (i + 1)) with (5 + 2 * i + 2) by lia; exact A'|]. rewrite EC. reflexivity.
Qed.
Lemma kx_all k : forall i c, cxAt (5 + 2 * i) c -> 5 + 2 * (i + N.of_nat k) < 200 -> Forall okAnswer (memAnswers toyI (map enc (kxCalls i k)) (cStore c true)).
Proof.
  induction k as [|k IH]; intros i c A L; cbn [kxCalls map memAnswers enc]; [constructor|].
  destruct (kx_send i c ltac:(lia) A) as (nym & w & c' & R & A' & S). unfold enc at 1. rewrite R. constructor; [exact I|]. rewrite <- S. apply IH; [exact A'|lia].
Qed.
Lemma kx_clean k : forall i c, cxAt (5 + 2 * i) c -> kxSt i (cStore c true) -> i + N.of_nat k <= 50 -> cleanCalls toyI (map enc (kxCalls i k)) (cStore c true).
Proof.
  induction k as [|k IH]; intros i c A X L; cbn [kxCalls map cleanCalls]; [exact I|]. unfold enc at 1.
  destruct (kx_send i c ltac:(lia) A) as (nym & w & c' & R & A' & S). rewrite R. cbn [snd]. destruct (kx_next i _ nym w X ltac:(lia) R) as [CL X'].
  split; [exact CL|]. rewrite <- S. rewrite <- S in X'. apply IH; [exact A'|exact X'|lia].
Qed.
Definition kxDB : dbw := mkDBW (privKEs (cxStore true)) (pubKEs (cxStore true)) emptyKDB [].
Lemma kx_empty : bothEmpty (cxStore true) kxDB.
Proof. repeat split. Qed.
Lemma kx_firstEnc : firstEnc toyI (fst (kxCall 0)) (snd (kxCall 0)) (cxStore true) (cxSec true) (cxSec false) (cxKI false) (str "nymaddress").
Proof.
  split.
  - exists []. reflexivity.
  - reflexivity.
  - exists []. reflexivity.
  - right. reflexivity.
  - cbn [kxCall fst cxArgs eTo]. change (uIdentity (cxUid (negb true))) with (cxName false). unfold cxStore. cbn [pubKEs mget negb]. rewrite beq_refl. reflexivity.
  - reflexivity.
  - unfold fiveKeys. apply (keys_fresh [5; 1; 6; 2; 4]).
    + repeat (constructor; [cbn [In]; intros Q; repeat (destruct Q as [Q|Q]; [discriminate|]); exact Q|]). constructor.
    + repeat constructor.
  - vm_compute. discriminate.
Qed.
Lemma kx_first nym w : run (encrypt toyI (fst (kxCall 0)) (snd (kxCall 0))) (cxStore true) = (Ok nym, w) ->
  clean (cxStore true) (wTrace w) /\ kxSt 1 (wStore w).
Proof.
  intros R. unfold run in R. apply encrypt_ok in R as (ss1 & w1 & w2 & hp & sk1 & mk & body & fp1 & tp1 & E).
  pose proof (eo_state _ _ _ _ _ _ _ _ _ _ _ _ _ _ _ E) as ES. rewrite (encState_first toyI _ _ (mkWorld (cxStore true) [] []) _ _ _ _ kx_firstEnc) in ES.
  apply pair_equal_spec in ES as [Q <-]. apply ok_inj, pair_equal_spec in Q as [<- <-].
  set (ss := ssFirst toyI (rSessPriv (snd (kxCall 0))) (cxKI false) (str "nymaddress")) in *.
  set (w1 := steps (mkWorld (cxStore true) [] []) _) in *.
  set (sk := sessKeyOf toyI (idHash toyI (cxSec true)) (idHash toyI (cxSec false)) (dhpub toyI (rSessPriv (snd (kxCall 0)))) (dhpub toyI (cxKI false))).
  set (fix_ := identityFix toyI (cxName true) (cxName false)).
  set (root := rootOf toyI (cxSec true) (rSessPriv (snd (kxCall 0))) (cxSec false) (cxKI false) None).
  set (s := sessAfter toyI (rSessPriv (snd (kxCall 0))) (cxKI false) fix_ root 50).
  assert (GK : mget sk (sessions (wStore w1)) = Some s).
  { unfold w1, encFirstOps. cbn [steps fold_left step_op wStore]. cbn [apply_op sessions]. apply newSess_get. reflexivity. }
  assert (LN : lenN (sSend s) = 50) by (unfold s, sessAfter, keysFor, lenN; cbn [sSend]; rewrite map_length, seq_length; reflexivity).
  pose proof (eo_key _ _ _ _ _ _ _ _ _ _ _ _ _ _ _ E) as EK. unfold encKey in EK.
  change (pubKey (idUid (eFrom (fst (kxCall 0))))) with (Ok kxF) in EK. change (pubKey (eTo (fst (kxCall 0)))) with (Ok kxT) in EK. rewrite !lift_bind in EK.
  change (calcKey toyI (keHash kxF) (keHash kxT) (keHash (stSenderPub ss)) (keHash (stRecipTemp ss))) with sk in EK.
  erewrite bind_ok in EK by (apply numMessageKeys_get; exact GK). cbv beta in EK. rewrite LN in EK. change (50 <=? stMsgCount ss) with false in EK. cbv iota in EK.
  erewrite bind_ok in EK by reflexivity. cbv beta in EK. apply mbind_ok in EK as (mk1 & w3 & G1 & G2). unfold mret in G2. apply pair_equal_spec in G2 as [Q <-]. apply ok_inj, pair_equal_spec in Q as [<- _].
  unfold getMessageKey in G1. apply pair_equal_spec in G1 as [_ <-].
  pose proof (eo_from _ _ _ _ _ _ _ _ _ _ _ _ _ _ _ E) as EF. change (pubKey (idUid (eFrom (fst (kxCall 0))))) with (Ok kxF) in EF. cbn [rbind] in EF. unfold kxF in EF. rewrite initDHKey_pub32 in EF. apply ok_inj in EF. subst fp1.
  pose proof (eo_to _ _ _ _ _ _ _ _ _ _ _ _ _ _ _ E) as ET. change (pubKey (eTo (fst (kxCall 0)))) with (Ok kxT) in ET. cbn [rbind] in ET. unfold kxT in ET. rewrite initDHKey_pub32 in ET. apply ok_inj in ET. subst tp1.
  pose proof (eo_end _ _ _ _ _ _ _ _ _ _ _ _ _ _ _ E) as EE. subst w. set (key := calcStateKey _ _ _) in *. set (out := b64enc _). split.
  - rewrite steps_trace. unfold w1. rewrite steps_trace. cbn [wTrace app]. unfold encFirstOps, addKey, newSess. cbn [app clean opClean].
    split; [split; [reflexivity|split; [apply b64enc_ne; discriminate|vm_compute; reflexivity]]|]. split; [split; [reflexivity|]|].
    { unfold keysFor, lenN. rewrite map_length, seq_length. vm_compute. reflexivity. }
    split; [cbn [ssFirst stSessCount stMsgCount stMaxRecv]; lia|]. do 2 (split; [exact I|]). split; [|exact I]. vm_compute. auto.
  - rewrite steps_store. cbn [fold_left apply_op]. rewrite GK. split. cbn [states sessions].
    exists (bumped ss), (mkSess (sRoot s) (sChain s) (set_nth (N.to_nat (stMsgCount ss)) [] (sSend s)) (sRecv s)).
    cbn [bumped stSessCount stMsgCount stMaxRecv stSenderPub stRecipTemp sSend]. fold key. rewrite mget_mset_same.
    change (calcKey toyI (keHash kxF) (keHash kxT) (keHash (stSenderPub ss)) (keHash (stRecipTemp ss))) with sk.
    rewrite mget_mset_same, set_nth_len. repeat split; assumption.
Qed.
Lemma kx_clean0 k : (k <= 49)%nat -> cleanCalls toyI (map enc (kxCalls 0 (S k))) (cxStore true).
Proof.
  intros L. change (kxCalls 0 (S k)) with (kxCall 0 :: kxCalls 1 k). cbn [map cleanCalls]. unfold enc at 1.
  destruct (kx_send 0 cxStart ltac:(lia) cxAt_start) as (nym & w & c' & R & A' & S). change (cStore cxStart true) with (cxStore true) in R. rewrite R. cbn [snd].
  destruct (kx_first _ _ R) as [CL X]. split; [exact CL|]. rewrite <- S. apply kx_clean; [exact A'|rewrite S; exact X|lia].
Qed.
Lemma dbAnswers_send C l : forall w, dbAnswers C (map (fun x => (true, enc x)) l) w = map (fun p => AEnc (fst p) (snd p)) (sendAll C l w).
Proof.
  induction l as [|[a r] l IH]; intros w; [reflexivity|]. cbn [map dbAnswers sendAll enc fst snd conn]. destruct (encryptDB C a r (newConn w)) as [x w']. cbn [map fst snd]. rewrite IH. reflexivity.
Qed.
Lemma map_snd_enc l : map snd (map (fun x => (true, enc x)) l) = map enc l.
Proof. rewrite map_map. reflexivity. Qed.
Lemma same_ok l l' : Forall2 sameAnswer l l' -> Forall okAnswer l -> Forall okAnswer l'.
Proof.
  induction 1 as [|x y l l' H _ IH]; intros F; [constructor|]. inversion F as [|? ? F1 F2]; subst. constructor; [|auto].
  destruct x as [[?|?|] ?|? ?]; try contradiction. destruct y as [[?|?|] ?|? ?]; try contradiction; try exact I; destruct H as [H _]; contradiction H.
Qed.
Lemma ok_count (l : list (res bytes * bytes)) : Forall okAnswer (map (fun p => AEnc (fst p) (snd p)) l) -> sentOk l = lenN l.
Proof.
  induction l as [|[x o] l IH]; intros F; [reflexivity|]. inversion F as [|? ? F1 F2]; subst. unfold sentOk in *. cbn [fst] in F1. destruct x; try contradiction.
  cbn [filter fst isOk]. rewrite !lenN_cons, IH by exact F2. reflexivity.
Qed.
Lemma sendAll_len C l : forall w, lenN (sendAll C l w) = lenN l.
Proof. induction l as [|[a r] l IH]; intros w; [reflexivity|]. cbn [sendAll]. destruct (encryptDB _ _ _ _). rewrite !lenN_cons, IH. reflexivity. Qed.
Lemma sendAll_prefix C l1 l2 : forall w, sentOk (sendAll C l1 w) <= sentOk (sendAll C (l1 ++ l2) w).
Proof.
  unfold sentOk. induction l1 as [|[a r] l1 IH]; intros w; cbn [app sendAll]; [cbn [filter]; unfold lenN; cbn [length]; lia|]. destruct (encryptDB C a r (newConn w)) as [x w'].
  cbn [filter fst]. specialize (IH w'). destruct (isOk x); [rewrite !lenN_cons; lia|exact IH].
Qed.
Lemma kx_db50 : sentOk (sendAll toyI (kxCalls 0 50) kxDB) = 50.
Proof.
  pose proof (C163_partial toyI (map (fun x => (true, enc x)) (kxCalls 0 50)) (cxStore true) kxDB kx_empty) as S. rewrite map_snd_enc in S.
  specialize (S (kx_clean0 49 ltac:(lia))). rewrite dbAnswers_send in S.
  pose proof (kx_all 50 0 cxStart cxAt_start ltac:(lia)) as A. rewrite (ok_count _ (same_ok _ _ S A)), sendAll_len. reflexivity.
Qed.
Lemma kx_starts : starts toyI kxF kxT (dhpub toyI (cxSec true)) (dhpub toyI (cxSec false)) (fst (kxCall 0)) (snd (kxCall 0)) kxDB.
Proof.
  split.
  - reflexivity.
  - reflexivity.
  - right. unfold dbGetState. rewrite (proj2 (beq_neq _ _)) by apply (key_ne toyI). reflexivity.
  - exists (initDHKey toyI (cxKI false)), (str "nymaddress"), (dhpub toyI (cxKI false)). split; [|split; [apply initDHKey_pub32|split; [reflexivity|reflexivity]]].
    cbn [kxCall fst cxArgs eTo kxDB bPub]. change (uIdentity (cxUid (negb true))) with (cxName false). unfold cxStore. cbn [pubKEs mget negb]. rewrite beq_refl. reflexivity.
  - apply idsOk_nil.
  - apply idsOk_nil.
  - apply idsOk_nil.
  - intros row [].
  - vm_compute. split; [discriminate|reflexivity].
Qed.
Lemma kx_sendTo k : forall i, Forall (fun x => sendTo kxF kxT (fst x) (snd x)) (kxCalls i k) /\ map flips (kxCalls i k) = repeat false k.
Proof.
  induction k as [|k IH]; intros i; cbn [kxCalls map repeat]; [split; [constructor|reflexivity]|]. destruct (IH (i + 1)) as [A B]. split; [|rewrite B; reflexivity].
  constructor; [|exact A]. split; reflexivity || discriminate.
Qed.
Lemma kx_db51 : sentOk (sendAll toyI (kxCalls 0 51) kxDB) <= 50.
Proof.
  change (kxCalls 0 51) with (kxCall 0 :: kxCalls (0 + 1) 50). destruct (encryptDB toyI (fst (kxCall 0)) (snd (kxCall 0)) (newConn kxDB)) as [x w'] eqn:E.
  destruct (isOk x) eqn:OK.
  - destruct x as [nym|?|]; [|discriminate OK|discriminate OK]. destruct (kx_sendTo 50 (0 + 1)) as [F FL].
    apply (C164_limit toyI kxF kxT _ _ (fst (kxCall 0)) (snd (kxCall 0)) kxDB nym w' (kxCalls (0 + 1) 50) (initDHKey_pub32 _ _) (initDHKey_pub32 _ _) kx_starts E F).
    rewrite FL. intros Q. exfalso. revert Q. generalize 50%nat. clear. intros n. induction n as [|n IH]; [discriminate|exact IH].
  - unfold kxCall at 1. cbn [sendAll]. unfold kxCall in E at 1 2. cbn [fst snd] in E. rewrite E. unfold sentOk. cbn [filter fst]. rewrite OK.
    assert (L : forall l : list (res bytes * bytes), lenN (filter (fun x => isOk (fst x)) l) <= lenN l).
    { clear. induction l as [|y l IH]; [unfold lenN; cbn [filter length]; lia|]. cbn [filter]. destruct (isOk (fst y)); rewrite ?lenN_cons; lia. }
    etransitivity; [apply L|]. rewrite sendAll_len. vm_compute. discriminate.
Qed.
(* With the defaults of the program, 50 of 51 messages leave; on the in-memory store of the tests all 51 do. *)
Example C164_case : sentOk (sendAll toyI (kxCalls 0 51) kxDB) = 50 /\ Forall okAnswer (memAnswers toyI (map enc (kxCalls 0 51)) (cxStore true)).
Proof.
  split; [|apply (kx_all 51 0 cxStart cxAt_start); vm_compute; reflexivity].
  apply N.le_antisymm; [apply kx_db51|]. rewrite <- kx_db50. exact (sendAll_prefix toyI (kxCalls 0 50) (kxCalls 50 1) kxDB).
Qed.
Example C163_case : bothEmpty (cxStore true) kxDB /\ cleanCalls toyI (map enc (kxCalls 0 50)) (cxStore true) /\
  Forall okAnswer (memAnswers toyI (map enc (kxCalls 0 50)) (cxStore true)).
Proof. split; [apply kx_empty|]. split; [apply (kx_clean0 49); lia|]. apply (kx_all 50 0 cxStart cxAt_start). vm_compute. reflexivity. Qed.
(* The unrestricted statement is false. *)
Theorem C163_refuted : exists C cs st w, bothEmpty st w /\ Forall okAnswer (memAnswers C (map snd cs) st) /\
  ~ Forall2 sameAnswer (memAnswers C (map snd cs) st) (dbAnswers C cs w).
Proof.
  exists toyI, (map (fun x => (true, enc x)) (kxCalls 0 51)), (cxStore true), kxDB. rewrite map_snd_enc. destruct C164_case as [A B].
  split; [apply kx_empty|]. split; [exact B|]. intros S. rewrite dbAnswers_send in S. apply same_ok in S; [|exact B]. apply ok_count in S.
  rewrite A, sendAll_len in S. discriminate S.
Qed.

Print Assumptions C163_partial.
Print Assumptions C163_refuted.
Print Assumptions C164_limit.
Print Assumptions C164_blocked.
