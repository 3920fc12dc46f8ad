(* C196: keys that were found by the lookup service. *)
From Coq Require Import Permutation.
From Verif Require Import Base Base64Model Base64Proofs CryptoModel Maps Asn1Model KeyPoolModel PropsKeyPool PoolStoreModel PropsPoolStore RemoteModel.
Delimit Scope string_scope with string.
Local Open Scope N_scope.

(* ---- specification ---- *)
(* a history of lookups; the service answers and the storages work differently each time, and the program may be restarted before *)
Record ask := mkAsk { aId : bytes; aNow : Z; aServer : bytes -> res bytes; aFaults : faults; aAgain : bool }.
Fixpoint asks (C : Crypto) (cb : callbacks) (h : list ask) (p : pool) (w : world) : list (ask * res pubKey) * pool * world :=
  match h with
  | [] => ([], p, w)
  | a :: h' =>
    let '(r, p1, w1) := lookupRemote C cb (aServer a) (aFaults a) (aNow a) (aId a) (if aAgain a then trusting (oGen p) (oTrust p) else p) w in
    let '(l, p2, w2) := asks C cb h' p1 w1 in ((a, r) :: l, p2, w2)
  end.
(* the keys that the service answered *)
Definition sentKey (a : ask) : list pubKey := match aServer a (aId a) with Ok m => match keyUnmarshal m with Ok k => [k] | _ => [] end | _ => [] end.
Definition sentKeys (h : list ask) : list pubKey := flat_map sentKey h.
(* a key as the issuer makes them *)
Definition proper (k : pubKey) : Prop := PropsPoolStore.fits k /\ lenN (pkID k) = 32 /\ wfb (pkID k) /\ lenN (pkSigner k) = 32 /\ lenN (pkSig k) = 64 /\ keyMarshal k <> None.

(* ---- soundness ---- *)
Lemma remote_ok C cb sv fl now id g tr ts p w r p' w' : poolOk C g tr ts p -> In now ts -> remoteFetch C cb sv fl now id p w = (r, p', w') -> poolOk C g tr ts p'.
Proof.
  intros O I E. unfold remoteFetch in E. destruct (sv id) as [m|s|]; [|inversion E; subst; exact O|inversion E; subst; exact O]. destruct (keyUnmarshal m) as [k|s|]; [|inversion E; subst; exact O|inversion E; subst; exact O].
  pose proof (loadKey_ok C g tr ts now k p O I) as L. destruct (loadKey C now k p) as [[x|s|] q]; cbn [snd] in L; [|destruct (String.eqb s errExists)|]; apply pair_equal_spec in E as [E _]; apply pair_equal_spec in E as [_ <-]; exact L.
Qed.
Lemma chain_ok C cb sv fl now id g tr ts p w r p' w' : poolOk C g tr ts p -> In now ts -> chainFetch C cb sv fl now id p w = (r, p', w') -> poolOk C g tr ts p'.
Proof.
  intros O I E. unfold chainFetch in E. destruct (cFetch cb) as [f|]; [|exact (remote_ok _ _ _ _ _ _ _ _ _ _ _ _ _ _ O I E)]. destruct (f fl w id); [inversion E; subst; exact O|exact (remote_ok _ _ _ _ _ _ _ _ _ _ _ _ _ _ O I E)|exact (remote_ok _ _ _ _ _ _ _ _ _ _ _ _ _ _ O I E)].
Qed.
Lemma lookup_sound C cb sv fl now id g tr ts p w r p' w' : poolOk C g tr ts p -> In now ts -> lookupRemote C cb sv fl now id p w = (r, p', w') ->
  poolOk C g tr ts p' /\ forall k, r = Ok k -> pkID k = id /\ sound C g tr ts k /\ (now <= pkExp k)%Z.
Proof.
  intros O I E. unfold lookupRemote in E. destruct (mget id (oKeys p)) as [d|] eqn:M.
  - apply pair_equal_spec in E as [E _]. apply pair_equal_spec in E as [<- <-]. split; [exact O|]. intros k Q. unfold lookup_ in Q. rewrite M in Q. destruct (Z.ltb_spec now (pkExp d)); [|discriminate Q]. injection Q as <-. destruct O as (_ & _ & D). destruct (D id d M). split; [auto|]. split; [assumption|lia].
  - destruct (chainFetch C cb sv fl now id p w) as [[r1 p1] w1] eqn:F. pose proof (chain_ok _ _ _ _ _ _ _ _ _ _ _ _ _ _ O I F) as O1.
    destruct r1 as [d|s|]; [|inversion E; subst; split; [exact O1|discriminate]|inversion E; subst; split; [exact O1|discriminate]]. destruct (keyUnmarshal d) as [k|s|]; [|inversion E; subst; split; [exact O1|discriminate]|inversion E; subst; split; [exact O1|discriminate]].
    pose proof (loadKey_ok C g tr ts now k p1 O1 I) as O2. destruct (loadKey C now k p1) as [r2 p2] eqn:LK. cbn [snd] in O2. destruct (loadKey_spec C now k p1 r2 p2 LK) as (_ & _ & _ & S' & SI).
    assert (SO : r2 = Ok (pkID k) \/ r2 = Err errExists -> sound C g tr ts k /\ (now <= pkExp k)%Z).
    { intros Q. specialize (S' Q). destruct O1 as (A & B & _). rewrite A in S'. split; [|destruct S' as [_ _ _ _ (t & [<-|[]] & T)]; exact T]. eapply sound_mono; [| |exact S']; [exact B|]. intros x [<-|[]]. exact I. }
    destruct r2 as [x|s|].
    + apply pair_equal_spec in E as [E _]. apply pair_equal_spec in E as [<- <-]. split; [exact O2|]. intros k0 Q. destruct (beq (pkID k) id) eqn:B; [|discriminate Q]. injection Q as <-. apply beq_spec in B. split; [exact B|]. apply SO. left. apply SI. reflexivity.
    + apply pair_equal_spec in E as [E _]. apply pair_equal_spec in E as [<- <-]. split; [exact O2|]. intros k0 Q. destruct (String.eqb s errExists) eqn:SE; [|discriminate Q]. destruct (beq (pkID k) id) eqn:B; [|discriminate Q]. injection Q as <-. apply beq_spec in B. split; [exact B|]. apply SO. right. apply String.eqb_eq in SE. congruence.
    + apply pair_equal_spec in E as [E _]. apply pair_equal_spec in E as [<- <-]. split; [exact O2|discriminate].
Qed.
Lemma asks_sound C cb g tr ts h : (forall a, In a h -> In (aNow a) ts) -> forall p w l p' w', poolOk C g tr ts p -> asks C cb h p w = (l, p', w') -> forall a k, In (a, Ok k) l -> pkID k = aId a /\ sound C g tr ts k /\ (aNow a <= pkExp k)%Z.
Proof.
  induction h as [|a h IH]; intros T p w l p' w' O E b k IN; cbn [asks] in E; [inversion E; subst; destruct IN|].
  assert (O0 : poolOk C g tr ts (if aAgain a then trusting (oGen p) (oTrust p) else p)). { destruct (aAgain a); [|exact O]. destruct O as (A & B & _). split; [exact A|]. split; [exact B|]. cbn. discriminate. }
  destruct (lookupRemote C cb (aServer a) (aFaults a) (aNow a) (aId a) _ w) as [[r p1] w1] eqn:L. destruct (asks C cb h p1 w1) as [[l2 p2] w2] eqn:E2. destruct (lookup_sound _ _ _ _ _ _ _ _ _ _ _ _ _ _ O0 (T a (or_introl eq_refl)) L) as [O1 F].
  apply pair_equal_spec in E as [E _]. apply pair_equal_spec in E as [<- _]. destruct IN as [Q|IN]; [apply pair_equal_spec in Q as [<- ->]; exact (F k eq_refl)|]. exact (IH (fun x I => T x (or_intror I)) _ _ _ _ _ O1 E2 b k IN).
Qed.
(* Whatever the service answers and the storages hold: a key that was found has the identifier that was asked for, it is signed by a trusted
   signer, of the usage of the pool, and not expired. *)
Theorem C196_sound : forall C cb g trust h w l p w', asks C cb h (trusting g trust) w = (l, p, w') -> forall a k, In (a, Ok k) l ->
  pkID k = aId a /\ pkID k = calcKeyID C k /\ edverify C (pkSigner k) (pkID k) (pkSig k) = true /\ (In (pkSigner k) trust \/ nPub g = Some (pkSigner k)) /\ (nUsage g = [] \/ pkUsage k = nUsage g) /\ (aNow a <= pkExp k)%Z.
Proof.
  intros C cb g trust h w l p w' E a k I. assert (O : poolOk C g trust (map aNow h) (trusting g trust)) by (split; [reflexivity|]; split; [auto|discriminate]).
  destruct (asks_sound C cb g trust (map aNow h) h (fun x I => in_map aNow _ _ I) _ _ _ _ _ O E a k I) as (Q & [S1 S2 S3 S4 _] & T).
  split; [exact Q|]. split; [exact S1|]. split; [exact S2|]. split; [exact S3|]. split; [exact S4|exact T].
Qed.

(* A key that the pool accepts is found if the service has it and the storages do not answer. *)
Theorem C196_found : forall C cb sv fl now p w m k, mget (pkID k) (oKeys p) = None -> match cFetch cb with Some f => is_ok (f fl w (pkID k)) = false | None => True end -> sv (pkID k) = Ok m -> keyUnmarshal m = Ok k ->
  (nUsage (oGen p) = [] \/ pkUsage k = nUsage (oGen p)) -> (now <= pkExp k)%Z -> In (pkSigner k) (oTrust p) -> pkID k = calcKeyID C k -> edverify C (pkSigner k) (pkID k) (pkSig k) = true ->
  exists p' w', lookupRemote C cb sv fl now (pkID k) p w = (Ok k, p', w') /\ mget (pkID k) (oKeys p') = Some k /\ ((now < pkExp k)%Z -> w' = snd (storeKey cb fl k w)).
Proof.
  intros C cb sv fl now p w m k M NF SV UM US EX TR ID SG.
  assert (LK : forall q, oGen q = oGen p -> oTrust q = oTrust p -> loadKey C now k q = match mget (pkID k) (oKeys q) with Some _ => (Err errExists, q) | None => (Ok (pkID k), mkPool (oGen q) (mset (pkID k) k (oKeys q)) (oTrust q) (oCurrent q) (oPrev q)) end).
  { intros q Q1 Q2. unfold loadKey. rewrite Q1. assert (U : negb (beq (nUsage (oGen p)) []) && negb (beq (pkUsage k) (nUsage (oGen p))) = false) by (destruct US as [X|X]; rewrite X, beq_refl; [reflexivity|apply andb_false_r]). rewrite U.
    destruct (Z.ltb_spec (pkExp k) now); [lia|]. assert (HV : hasVerifyKey (pkSigner k) q = true) by (unfold hasVerifyKey; rewrite Q2; apply existsb_exists; exists (pkSigner k); split; [exact TR|apply beq_refl]). rewrite HV. cbn [negb].
    assert (KV : keyVerify C k (pkSigner k) = true) by (unfold keyVerify; rewrite <- ID, beq_refl; exact SG). rewrite KV. reflexivity. }
  set (p1 := mkPool (oGen p) (mset (pkID k) k (oKeys p)) (oTrust p) (oCurrent p) (oPrev p)). assert (M1 : mget (pkID k) (oKeys p1) = Some k) by apply mget_mset_same.
  assert (RF : chainFetch C cb sv fl now (pkID k) p w = (Ok m, p1, snd (saveKey (withService cb) fl now (pkID k) p1 w))).
  { assert (R : remoteFetch C cb sv fl now (pkID k) p w = (Ok m, p1, snd (saveKey (withService cb) fl now (pkID k) p1 w))) by (unfold remoteFetch; rewrite SV, UM, (LK p eq_refl eq_refl), M; reflexivity).
    unfold chainFetch. destruct (cFetch cb) as [f|]; [|exact R]. destruct (f fl w (pkID k)); [discriminate NF|exact R|exact R]. }
  exists p1, (snd (saveKey (withService cb) fl now (pkID k) p1 w)). split; [|split; [exact M1|]].
  - unfold lookupRemote. rewrite M, RF, UM, (LK p1 eq_refl eq_refl), M1, beq_refl. rewrite String.eqb_refl. reflexivity.
  - intros LT. unfold saveKey, lookup_. rewrite M1, (proj2 (Z.ltb_lt _ _) LT). reflexivity.
Qed.

(* ---- what was found stays ---- *)
Section Kept.
Variables (C : Crypto) (K : list pubKey) (tb : nat -> bool) (n : nat).
Hypothesis KP : forall k, In k K -> proper k.
Hypothesis KD : distinct K.
Lemma KF : forall k, In k K -> PropsPoolStore.fits k /\ lenN (pkID k) = 32 /\ wfb (pkID k) /\ lenN (pkSigner k) = 32 /\ lenN (pkSig k) = 64.
Proof. intros k I. destruct (KP k I) as (A & B & D & E & F & _). auto. Qed.
(* a first storage that works keeps the key, whatever becomes of the others *)
Lemma first_keeps m fl k c u : In k K -> keyMarshal k = Some c -> (forall i b, fl i <> Torn b) -> fl O = Fine -> forall w r w', kinds tb w -> wOk K w -> (0 < length w)%nat ->
  runWrite (setup C tb (S m)) fl (pkID k) u c w = (r, w') -> storedAt k w' O.
Proof.
  intros IK M NT F0. induction m as [|m IH]; intros w r w' KI WO LW H.
  - rewrite runWrite_S in H. unfold runWrite in H. cbn [setup cWrite] in H. destruct (write1_spec K tb KF KD O fl k c u w r w' KI WO IK M (NT O) H) as (_ & _ & _ & _ & W). apply W; [|right; exact F0].
    unfold write1 in H. destruct (nth_error w O) as [b|] eqn:NB; [|apply nth_error_None in NB; lia]. pose proof (KI O b NB) as KB. pose proof (WO O b NB) as OB. destruct b as [d|t]; rewrite KB in H.
    + unfold dirWriteCb in H. rewrite NB, F0 in H. unfold dirWrite in H. destruct (mget (fileName (pkID k)) d) as [[x|]|] eqn:G; [|exfalso; apply mget_In in G; destruct (OB _ _ G) as (? & ? & Q & _); discriminate Q|]; apply pair_equal_spec in H as [<- _]; reflexivity.
    + unfold dbWriteCb in H. rewrite NB, F0 in H. unfold dbWrite, dbInsert in H. cbn [isFine negb] in H. destruct (mget (hexenc (pkID k)) t); apply pair_equal_spec in H as [<- _]; reflexivity.
  - rewrite runWrite_S in H. destruct (runWrite (setup C tb (S m)) fl (pkID k) u c w) as [r1 w1] eqn:E1. specialize (IH w r1 w1 KI WO LW E1). destruct (runWrite_spec C K tb KF KD (S m) fl k c u IK M NT w r1 w1 KI WO E1) as (A1 & A2 & _).
    destruct r1 as [[]|s|]; [|apply pair_equal_spec in H as [_ <-]; exact IH|apply pair_equal_spec in H as [_ <-]; exact IH].
    destruct (write1_spec K tb KF KD (S m) fl k c u w1 r w' A1 A2 IK M (NT (S m)) H) as (_ & _ & _ & W & _). exact (W k O IK IH).
Qed.
Definition kept (k : pubKey) (w : world) : Prop := exists i, (i < n)%nat /\ storedAt k w i.
Definition good (g : generator) (tr : list bytes) (p : pool) (w : world) : Prop :=
  oGen p = g /\ oTrust p = tr /\ kinds tb w /\ wOk K w /\ length w = n /\ forall id k, mget id (oKeys p) = Some k -> In k K /\ id = pkID k /\ kept k w /\ In (pkSigner k) tr.
Hypothesis N0 : (0 < n)%nat.
Lemma store_good fl k w r w' : In k K -> (forall i b, fl i <> Torn b) -> fl O = Fine -> kinds tb w -> wOk K w -> length w = n -> storeKey (setup C tb n) fl k w = (r, w') ->
  kinds tb w' /\ wOk K w' /\ length w' = n /\ (forall x, In x K -> kept x w -> kept x w') /\ kept k w'.
Proof.
  intros IK NT F0 KI WO LW E. unfold storeKey in E. destruct (keyMarshal k) as [c|] eqn:M; [|destruct (KP k IK) as (_ & _ & _ & _ & _ & Q); contradiction Q].
  assert (E' : runWrite (setup C tb n) fl (pkID k) (pkUsage k) c w = (r, w')) by exact E. destruct (runWrite_spec C K tb KF KD n fl k c (pkUsage k) IK M NT w r w' KI WO E') as (A1 & A2 & A3 & A4 & _).
  split; [exact A1|]. split; [exact A2|]. split; [congruence|]. split; [intros x IX (i & L & S'); exists i; split; [exact L|exact (A4 x i IX S')]|].
  exists O. split; [exact N0|]. destruct n as [|m]; [lia|]. exact (first_keeps m fl k c (pkUsage k) IK M NT F0 w r w' KI WO ltac:(lia) E').
Qed.
(* a key in a table *)
Lemma fetch_kept fl w id m : wOk K w -> wfb id -> forall f d, cFetch (setup C tb m) = Some f -> f fl w id = Ok d -> exists k i, (i < m)%nat /\ In k K /\ pkID k = id /\ keyMarshal k = Some d /\ storedAt k w i.
Proof.
  intros WO WI. assert (ONE : forall i d, dbFetchCb i fl w id = Ok d -> exists k, In k K /\ pkID k = id /\ keyMarshal k = Some d /\ storedAt k w i).
  { intros i d H. unfold dbFetchCb in H. destruct (nth_error w i) as [[?|t]|] eqn:NI; try discriminate H. destruct (fl i); try discriminate H.
    unfold dbFetch in H. destruct (mget (hexenc id) t) as [[u e]|] eqn:G; [|discriminate H]. apply mget_In in G. destruct (WO i _ NI _ _ _ G) as (k & c & N1 & -> & I1 & M1). exists k. split; [exact I1|].
    assert (PI : pkID k = id). { pose proof (hexdec_enc id WI) as X. rewrite N1 in X. rewrite hexdec_enc in X by (destruct (KP k I1) as (_ & _ & W & _); exact W). congruence. }
    split; [exact PI|]. rewrite b64dec_enc in H by (destruct (KP k I1) as ((_ & _ & _ & _ & D) & _); exact (proj2 (D c M1))). split; [congruence|]. exists (Db t). split; [exact NI|]. exists u, c. rewrite PI. split; [exact G|exact M1]. }
  induction m as [|m IH]; intros f d E H; [discriminate E|]. cbn [setup] in E. destruct (tb m) eqn:T; cbn [addDb addDir registerStorage cFetch] in E.
  - injection E as <-. destruct (cFetch (setup C tb m)) as [old|] eqn:CF.
    + destruct (old fl w id) as [d0|s|] eqn:O; [injection H as <-; destruct (IH old d0 eq_refl O) as (k & i & L & R); exists k, i; split; [lia|exact R]| |]; destruct (ONE m d H) as (k & R); exists k, m; (split; [lia|exact R]).
    + destruct (ONE m d H) as (k & R). exists k, m. split; [lia|exact R].
  - destruct (IH f d E H) as (k & i & L & R). exists k, i. split; [lia|exact R].
Qed.
Lemma loadKey_cases now k p r p' : loadKey C now k p = (r, p') -> oGen p' = oGen p /\ oTrust p' = oTrust p /\
  ((r = Ok (pkID k) /\ mget (pkID k) (oKeys p) = None /\ oKeys p' = mset (pkID k) k (oKeys p) /\ (now <= pkExp k)%Z /\ In (pkSigner k) (oTrust p)) \/ (p' = p /\ (r = Err errExists -> mget (pkID k) (oKeys p) <> None /\ (now <= pkExp k)%Z /\ In (pkSigner k) (oTrust p)) /\ is_ok r = false)).
Proof.
  unfold loadKey. intros E.
  destruct (negb (beq (nUsage (oGen p)) []) && negb (beq (pkUsage k) (nUsage (oGen p)))); [apply pair_equal_spec in E as [<- <-]; split; [reflexivity|]; split; [reflexivity|]; right; split; [reflexivity|]; split; [discriminate|reflexivity]|].
  destruct (Z.ltb_spec (pkExp k) now) as [X|X]; [apply pair_equal_spec in E as [<- <-]; split; [reflexivity|]; split; [reflexivity|]; right; split; [reflexivity|]; split; [discriminate|reflexivity]|].
  destruct (hasVerifyKey (pkSigner k) p) eqn:HV; cbn [negb] in E; [apply existsb_In in HV|apply pair_equal_spec in E as [<- <-]; split; [reflexivity|]; split; [reflexivity|]; right; split; [reflexivity|]; split; [discriminate|reflexivity]].
  destruct (negb (keyVerify C k (pkSigner k))); [apply pair_equal_spec in E as [<- <-]; split; [reflexivity|]; split; [reflexivity|]; right; split; [reflexivity|]; split; [discriminate|reflexivity]|].
  destruct (mget (pkID k) (oKeys p)) eqn:M; apply pair_equal_spec in E as [<- <-]; (split; [reflexivity|]; split; [reflexivity|]).
  - right. split; [reflexivity|]. split; [intros _; split; [discriminate|split; [exact X|exact HV]]|reflexivity].
  - left. split; [reflexivity|]. split; [reflexivity|]. split; [reflexivity|]. split; [exact X|exact HV].
Qed.
Lemma remote_good sv fl now id g tr p w r p' w' : good g tr p w -> (forall i b, fl i <> Torn b) -> fl O = Fine -> (forall m k, sv id = Ok m -> keyUnmarshal m = Ok k -> In k K) -> (forall k, In k K -> pkExp k <> now) ->
  remoteFetch C (setup C tb n) sv fl now id p w = (r, p', w') -> good g tr p' w' /\ (forall x, In x K -> kept x w -> kept x w') /\ forall m k, r = Ok m -> keyUnmarshal m = Ok k -> In k K /\ kept k w'.
Proof.
  intros G NT F0 SK NX E. unfold remoteFetch in E. destruct (sv id) as [m|s|] eqn:SV; [|inversion E; subst; split; [exact G|split; [auto|discriminate]]|inversion E; subst; split; [exact G|split; [auto|discriminate]]].
  destruct (keyUnmarshal m) as [k|s|] eqn:UM; [|inversion E; subst; split; [exact G|split; [auto|discriminate]]|inversion E; subst; split; [exact G|split; [auto|discriminate]]]. pose proof (SK m k eq_refl UM) as IK.
  destruct (loadKey C now k p) as [rl pl] eqn:LK. destruct (loadKey_cases _ _ _ _ _ LK) as (LG & LT & CS). destruct G as (G1 & G2 & G3 & G4 & G5 & G6).
  assert (SAVE : (now <= pkExp k)%Z -> In (pkSigner k) (oTrust p) -> mget (pkID k) (oKeys pl) = Some k -> (forall id0 x, mget id0 (oKeys pl) = Some x -> x = k /\ id0 = pkID k \/ mget id0 (oKeys p) = Some x) ->
     (Ok m, pl, snd (saveKey (withService (setup C tb n)) fl now (pkID k) pl w)) = (r, p', w') -> good g tr p' w' /\ (forall x, In x K -> kept x w -> kept x w') /\ forall m0 k0, r = Ok m0 -> keyUnmarshal m0 = Ok k0 -> In k0 K /\ kept k0 w').
  { intros X TR MK OLD Q. rewrite G2 in TR. unfold saveKey, lookup_ in Q. rewrite MK in Q. destruct (Z.ltb_spec now (pkExp k)) as [_|Y]; [|specialize (NX k IK); lia]. change (storeKey (withService (setup C tb n)) fl k w) with (storeKey (setup C tb n) fl k w) in Q. destruct (storeKey (setup C tb n) fl k w) as [rs ws] eqn:ST. cbn [snd] in Q. apply pair_equal_spec in Q as [Q <-]. apply pair_equal_spec in Q as [<- <-].
    destruct (store_good fl k w rs ws IK NT F0 G3 G4 G5 ST) as (S1 & S2 & S3 & S4 & S5). split.
    - split; [congruence|]. split; [congruence|]. split; [exact S1|]. split; [exact S2|]. split; [exact S3|]. intros id0 x MX. destruct (OLD id0 x MX) as [[-> ->]|OX]; [auto|]. destruct (G6 id0 x OX) as (A & B & D & D'). split; [exact A|]. split; [exact B|]. split; [exact (S4 x A D)|exact D'].
    - split; [exact S4|]. intros m0 k0 Q1 Q2. injection Q1 as <-. rewrite UM in Q2. injection Q2 as <-. split; assumption. }
  destruct CS as [(-> & MN & KQ & X & TR)|(-> & EX & NO)].
  - apply SAVE; [exact X|exact TR|rewrite KQ; apply mget_mset_same| |exact E]. intros id0 x MX. rewrite KQ, mget_mset in MX. destruct (beq id0 (pkID k)) eqn:B; [left|right; exact MX]. apply beq_spec in B. split; [congruence|exact B].
  - destruct rl as [x|s|]; [discriminate NO| |]; [destruct (String.eqb s errExists) eqn:SE|].
    + apply String.eqb_eq in SE. subst s. destruct (EX eq_refl) as (MN & X & TR). apply SAVE; [exact X|exact TR| |auto|exact E]. destruct (mget (pkID k) (oKeys p)) as [x|] eqn:MX; [|contradiction MN; reflexivity]. destruct (G6 _ _ MX) as (A & B & _). f_equal. apply KD; [exact A|exact IK|congruence].
    + apply pair_equal_spec in E as [E <-]. apply pair_equal_spec in E as [<- <-]. split; [repeat (split; [assumption|]); exact G6|split; [auto|discriminate]].
    + apply pair_equal_spec in E as [E <-]. apply pair_equal_spec in E as [<- <-]. split; [repeat (split; [assumption|]); exact G6|split; [auto|discriminate]].
Qed.
Lemma lookup_good sv fl now id g tr p w r p' w' : good g tr p w -> wfb id -> (forall i b, fl i <> Torn b) -> fl O = Fine -> (forall m k, sv id = Ok m -> keyUnmarshal m = Ok k -> In k K) -> (forall k, In k K -> pkExp k <> now) ->
  lookupRemote C (setup C tb n) sv fl now id p w = (r, p', w') -> good g tr p' w' /\ (forall x, In x K -> kept x w -> kept x w') /\ forall k, r = Ok k -> In k K /\ kept k w' /\ In (pkSigner k) tr.
Proof.
  intros G WI NT F0 SK NX E. unfold lookupRemote in E. destruct (mget id (oKeys p)) as [d|] eqn:M.
  - apply pair_equal_spec in E as [E <-]. apply pair_equal_spec in E as [<- <-]. split; [exact G|]. split; [auto|]. intros k Q. unfold lookup_ in Q. rewrite M in Q. destruct (now <? pkExp d)%Z; [|discriminate Q]. injection Q as <-. destruct G as (_ & _ & _ & _ & _ & G6). destruct (G6 id d M) as (A & _ & B). auto.
  - destruct (chainFetch C (setup C tb n) sv fl now id p w) as [[r1 p1] w1] eqn:F.
    assert (STEP : good g tr p1 w1 /\ (forall x, In x K -> kept x w -> kept x w1) /\ forall m k, r1 = Ok m -> keyUnmarshal m = Ok k -> In k K /\ kept k w1).
    { unfold chainFetch in F. destruct (cFetch (setup C tb n)) as [f|] eqn:CF; [|exact (remote_good _ _ _ _ _ _ _ _ _ _ _ G NT F0 SK NX F)]. destruct (f fl w id) as [d|s|] eqn:FD; [|exact (remote_good _ _ _ _ _ _ _ _ _ _ _ G NT F0 SK NX F)|exact (remote_good _ _ _ _ _ _ _ _ _ _ _ G NT F0 SK NX F)].
      apply pair_equal_spec in F as [F <-]. apply pair_equal_spec in F as [<- <-]. split; [exact G|]. split; [auto|]. intros m k Q U. injection Q as <-. destruct G as (_ & _ & _ & G4 & _ & _).
      destruct (fetch_kept fl w id n G4 WI f d CF FD) as (k0 & i & L & IK & _ & MK & ST). rewrite (K_decode K KF k0 d IK MK) in U. injection U as <-. split; [exact IK|]. exists i. split; assumption. }
    destruct STEP as (G1 & KE & KK).
    destruct r1 as [d|s|]; [|inversion E; subst; split; [exact G1|split; [exact KE|discriminate]]|inversion E; subst; split; [exact G1|split; [exact KE|discriminate]]].
    destruct (keyUnmarshal d) as [k|s|] eqn:U; [|inversion E; subst; split; [exact G1|split; [exact KE|discriminate]]|inversion E; subst; split; [exact G1|split; [exact KE|discriminate]]].
    destruct (KK d k eq_refl U) as [IK KT]. destruct (loadKey C now k p1) as [r2 p2] eqn:LK. destruct (loadKey_cases _ _ _ _ _ LK) as (LG & LT & CS).
    assert (G2 : good g tr p2 w1).
    { destruct G1 as (A1 & A2 & A3 & A4 & A5 & A6). split; [congruence|]. split; [congruence|]. split; [exact A3|]. split; [exact A4|]. split; [exact A5|]. destruct CS as [(_ & _ & KQ & _ & TR)|(-> & _)]; [|exact A6]. rewrite A2 in TR.
      intros id0 x MX. rewrite KQ, mget_mset in MX. destruct (beq id0 (pkID k)) eqn:B; [|exact (A6 id0 x MX)]. apply beq_spec in B. injection MX as <-. auto. }
    assert (T1 : oTrust p1 = tr) by (destruct G1 as (_ & A2 & _); exact A2).
    assert (FO : In (pkSigner k) tr -> forall k0, (if beq (pkID k) id then Ok k else Err "keypool: not found"%string) = Ok k0 -> In k0 K /\ kept k0 w1 /\ In (pkSigner k0) tr) by (intros TR k0 Q; destruct (beq (pkID k) id); [|discriminate Q]; injection Q as <-; auto).
    assert (TS : (exists x, r2 = Ok x) \/ r2 = Err errExists -> In (pkSigner k) tr).
    { intros Q. rewrite <- T1. destruct CS as [(_ & _ & _ & _ & TR)|(_ & EX & NO)]; [exact TR|]. destruct Q as [[x Q]|Q]; [rewrite Q in NO; discriminate NO|]. apply (EX Q). }
    destruct r2 as [x|s|]; apply pair_equal_spec in E as [E <-]; apply pair_equal_spec in E as [<- <-]; (split; [exact G2|]); (split; [exact KE|]); intros k0 Q; [apply FO; [apply TS; left; exists x; reflexivity|exact Q]| |discriminate Q].
    destruct (String.eqb s errExists) eqn:SE; [|discriminate Q]. apply String.eqb_eq in SE. subst s. apply FO; [apply TS; right; reflexivity|exact Q].
Qed.
Lemma asks_good g tr h : (forall a, In a h -> wfb (aId a) /\ (forall i b, aFaults a i <> Torn b) /\ aFaults a O = Fine /\ incl (sentKey a) K /\ forall k, In k K -> pkExp k <> aNow a) ->
  forall p w l p' w', good g tr p w -> asks C (setup C tb n) h p w = (l, p', w') -> good g tr p' w' /\ (forall x, In x K -> kept x w -> kept x w') /\ forall a k, In (a, Ok k) l -> In k K /\ kept k w' /\ In (pkSigner k) tr.
Proof.
  induction h as [|a h IH]; intros T p w l p' w' G E; cbn [asks] in E; [inversion E; subst; split; [exact G|]; split; [auto|intros a k []]|].
  destruct (T a (or_introl eq_refl)) as (WI & NT & F0 & SK & NX).
  assert (G0 : good g tr (if aAgain a then trusting (oGen p) (oTrust p) else p) w). { destruct (aAgain a); [|exact G]. destruct G as (A1 & A2 & A3 & A4 & A5 & _). split; [exact A1|]. split; [exact A2|]. split; [exact A3|]. split; [exact A4|]. split; [exact A5|]. cbn. discriminate. }
  destruct (lookupRemote C (setup C tb n) (aServer a) (aFaults a) (aNow a) (aId a) _ w) as [[r p1] w1] eqn:L. destruct (asks C (setup C tb n) h p1 w1) as [[l2 p2] w2] eqn:E2.
  assert (SK' : forall m k, aServer a (aId a) = Ok m -> keyUnmarshal m = Ok k -> In k K) by (intros m k SV UM; apply SK; unfold sentKey; rewrite SV, UM; left; reflexivity).
  destruct (lookup_good _ _ _ _ _ _ _ _ _ _ _ G0 WI NT F0 SK' NX L) as (G1 & KE & FK).
  destruct (IH (fun x I => T x (or_intror I)) _ _ _ _ _ G1 E2) as (G2 & KE2 & FK2). apply pair_equal_spec in E as [E <-]. apply pair_equal_spec in E as [<- <-]. split; [exact G2|]. split; [intros x IX KX; exact (KE2 x IX (KE x IX KX))|].
  intros b k [Q|I]; [apply pair_equal_spec in Q as [_ ->]; destruct (FK k eq_refl) as (IK & KX & TX); split; [exact IK|]; split; [exact (KE2 k IK KX)|exact TX]|exact (FK2 b k I)].
Qed.
End Kept.

(* A key that was found by a lookup is in the pool after a restart and Load, without the service, if the first storage works all the time.
   Missing: failures of the first storage and lookups in the second in which a key expires, see below; storages with other contents. *)
Theorem C196_kept_partial : forall C g trust w0 h l p w, fresh w0 -> w0 <> [] ->
  (forall a, In a h -> wfb (aId a) /\ (forall i b, aFaults a i <> Torn b) /\ aFaults a O = Fine) -> (forall k, In k (sentKeys h) -> proper k) -> distinct (sentKeys h) ->
  (forall a k, In a h -> In k (sentKeys h) -> pkExp k <> aNow a) -> asks C (callbacksOf C w0) h (trusting g trust) w0 = (l, p, w) ->
  forall a k o now, In (a, Ok k) l -> complete o -> (now <= pkExp k)%Z ->
  exists p2, load (withService (callbacksOf C w0)) allFine o now w (trusting g trust) = (Ok tt, p2) /\ mget (pkID k) (oKeys p2) = Some k /\ ((now < pkExp k)%Z -> lookup_ now (aId a) p2 = Ok k).
Proof.
  intros C g trust w0 h l p w FW NE HA KP KD NX E a k o now I CO EX. set (K := sentKeys h) in *. set (tb := tables w0). set (n := length w0).
  assert (N0 : (0 < n)%nat) by (unfold n; destruct w0; [contradiction NE; reflexivity|cbn; lia]).
  assert (G0 : good K tb n g trust (trusting g trust) w0).
  { split; [reflexivity|]. split; [reflexivity|]. split; [intros i b J; unfold tb, tables; rewrite J; destruct b; reflexivity|]. split; [|split; [reflexivity|cbn; discriminate]].
    intros i b J. destruct (FW i b J) as [->| ->]; cbn [bOk]; intros; contradiction. }
  assert (HA' : forall x, In x h -> wfb (aId x) /\ (forall i b, aFaults x i <> Torn b) /\ aFaults x O = Fine /\ incl (sentKey x) K /\ forall k0, In k0 K -> pkExp k0 <> aNow x).
  { intros x IX. destruct (HA x IX) as (A1 & A2 & A3). split; [exact A1|]. split; [exact A2|]. split; [exact A3|]. split; [|intros k0 I0; exact (NX x k0 IX I0)]. intros y IY. unfold K, sentKeys. apply in_flat_map. exists x. split; assumption. }
  destruct (asks_good C K tb n KP KD N0 g trust h HA' _ _ _ _ _ G0 E) as (G1 & _ & FK). destruct (FK a k I) as (IK & (i & L & ST) & TR). destruct G1 as (_ & _ & A3 & A4 & A5 & _).
  destruct (C196_sound C _ g trust h w0 l p w E a k I) as (ID & S1 & S2 & S3 & S4 & _).
  destruct (load_K C K tb (KF K KP) KD o now w n CO A3 A4 ltac:(lia) (trusting g trust)) as (p2 & E2 & _ & _ & _ & _ & B); [intros ? ? Q; discriminate Q|].
  exists p2. split; [exact E2|]. assert (M : mget (pkID k) (oKeys p2) = Some k).
  { apply (B k i L IK ST). split; [exact S4|]. split; [exact EX|]. split; [exact TR|]. unfold keyVerify. rewrite <- S1, beq_refl. exact S2. }
  split; [exact M|]. intros LT. rewrite <- ID. unfold lookup_. rewrite M. rewrite (proj2 (Z.ltb_lt _ _) LT). reflexivity.
Qed.

(* ---- cases and refutations ---- *)
Definition exPk : pubKey := Eval vm_compute in exKey 1000.
Definition exDer : bytes := Eval vm_compute in match keyMarshal exPk with Some d => d | None => [] end.
Definition exService : bytes -> res bytes := fun _ => Ok exDer.
Definition exOff : bytes -> res bytes := fun _ => Err "connection refused"%string.
Definition exAsk (now : Z) (sv : bytes -> res bytes) (fl : faults) (again : bool) : ask := mkAsk (pkID exPk) now sv fl again.
Lemma exDer_key : keyUnmarshal exDer = Ok exPk.
Proof. vm_compute. reflexivity. Qed.
(* a directory and a table; the table refuses; the service is off at the second lookup, after a restart on at the third *)
Definition exAsks : list ask := [exAsk 1000 exService (refuse 1) false; exAsk 1010 exOff allFine false; exAsk 1020 exService allFine true].
Definition exTwo : world := [Dir []; Db []].
Definition exAsksRun : list (ask * res pubKey) * pool * world := asks toy (callbacksOf toy exTwo) exAsks (trusting exUser [exSigner]) exTwo.
Lemma proper_exPk : proper exPk.
Proof.
  assert (F : ((-1000 <? pkExp exPk) && (pkExp exPk <? 10000))%Z && (lenN (pkUsage exPk) <? 1000) && (lenN (bigBytes (pkX exPk)) <? 1000) && (lenN (bigBytes (pkY exPk)) <? 1000)
        && match keyMarshal exPk with Some d => (lenN d <? 1000) && forallb (fun x => x <? 256) d | None => false end && forallb (fun x => x <? 256) (pkID exPk) = true) by (vm_compute; reflexivity).
  rewrite !andb_true_iff in F. destruct F as [[[[[[F1 F2] F3] F4] F5] F6] F7]. unfold proper, PropsPoolStore.fits. change (2 ^ 31) with 2147483648. change (2 ^ 63)%Z with 9223372036854775808%Z.
  split; [split; [lia|]; split; [lia|]; split; [lia|]; split; [lia|]|].
  - intros d E. rewrite E in F6. apply andb_true_iff in F6 as [F6 F8]. split; [lia|]. unfold wfb. rewrite forallb_forall in F8. apply Forall_forall. intros x X. specialize (F8 x X). lia.
  - split; [reflexivity|]. split; [unfold wfb; rewrite forallb_forall in F7; apply Forall_forall; intros x X; specialize (F7 x X); lia|]. split; [reflexivity|]. split; [reflexivity|]. intros Q. rewrite Q in F6. discriminate F6.
Qed.
Lemma exSent : sentKeys exAsks = [exPk; exPk].
Proof. vm_compute. reflexivity. Qed.
Example C196_kept_ex : map snd (fst (fst exAsksRun)) = [Ok exPk; Ok exPk; Ok exPk] /\ fresh exTwo /\ (forall a, In a exAsks -> wfb (aId a) /\ (forall i b, aFaults a i <> Torn b) /\ aFaults a O = Fine) /\
  (forall k, In k (sentKeys exAsks) -> proper k) /\ distinct (sentKeys exAsks) /\ (forall a k, In a exAsks -> In k (sentKeys exAsks) -> pkExp k <> aNow a) /\ pkExp exPk = 1100%Z.
Proof.
  split; [vm_compute; reflexivity|]. split; [intros [|[|[|i]]] b E; try discriminate E; injection E as <-; auto|].
  assert (W : wfb (pkID exPk)) by (destruct proper_exPk as (_ & _ & W & _); exact W).
  split; [intros a [<-|[<-|[<-|[]]]]; cbn [exAsk aId aFaults]; (split; [exact W|]); (split; [intros i b; unfold refuse, allFine; try discriminate; destruct (Nat.eqb 1 i); discriminate|reflexivity])|].
  rewrite exSent. split; [intros k [<-|[<-|[]]]; exact proper_exPk|]. split; [intros a b [<-|[<-|[]]] [<-|[<-|[]]] _; reflexivity|].
  split; [intros a k [<-|[<-|[<-|[]]]] [<-|[<-|[]]]; discriminate|reflexivity].
Qed.
Example C196_found_ex : exists p' w', lookupRemote toy (callbacksOf toy exTwo) exService allFine 1000 (pkID exPk) (trusting exUser [exSigner]) exTwo = (Ok exPk, p', w') /\ mget (pkID exPk) (oKeys p') = Some exPk.
Proof.
  destruct (C196_found toy (callbacksOf toy exTwo) exService allFine 1000 (trusting exUser [exSigner]) exTwo exDer exPk) as (p' & w' & A & B & _); [reflexivity|vm_compute; reflexivity|reflexivity|exact exDer_key| | |left; reflexivity|vm_compute; reflexivity|vm_compute; reflexivity|exists p', w'; split; assumption].
  - right. vm_compute. reflexivity.
  - vm_compute. discriminate.
Qed.
(* The storage refuses the key (a table does so without a word; the error of a directory is dropped): Lookup finds the key all the same, and
   after a restart it is not there. *)
Theorem C196_refuted : forall b, b = Dir [] \/ b = Db [] -> exists C g trust h l p w a k o now, fresh [b] /\ asks C (callbacksOf C [b]) h (trusting g trust) [b] = (l, p, w) /\ In (a, Ok k) l /\ In k (sentKeys h) /\ proper k /\ complete o /\ (now < pkExp k)%Z /\
  exists p2, load (withService (callbacksOf C [b])) allFine o now w (trusting g trust) = (Ok tt, p2) /\ mget (pkID k) (oKeys p2) = None.
Proof.
  assert (CHK : forall b, b = Dir [] \/ b = Db [] -> let '(l, p, w) := asks toy (callbacksOf toy [b]) [exAsk 1000 exService (refuse 0) false] (trusting exUser [exSigner]) [b] in map snd l = [Ok exPk] /\ w = [b] /\
    load (withService (callbacksOf toy [b])) allFine asIs 1060 w (trusting exUser [exSigner]) = (Ok tt, trusting exUser [exSigner])) by (intros b [->| ->]; vm_compute; repeat split; reflexivity).
  intros b HB. specialize (CHK b HB). destruct (asks toy (callbacksOf toy [b]) [exAsk 1000 exService (refuse 0) false] (trusting exUser [exSigner]) [b]) as [[l p] w] eqn:E. destruct CHK as (ML & WB & LD).
  destruct l as [|[a r] [|y l]]; try discriminate ML. cbn [map snd] in ML. injection ML as ->.
  exists toy, exUser, [exSigner], [exAsk 1000 exService (refuse 0) false], [(a, Ok exPk)], p, w, a, exPk, asIs, 1060%Z. split; [intros [|[|i]] x Q; [injection Q as <-; exact HB|discriminate Q|discriminate Q]|].
  split; [exact E|]. split; [left; reflexivity|]. split; [vm_compute; left; reflexivity|]. split; [exact proper_exPk|]. split; [apply asIs_complete|]. split; [reflexivity|]. exists (trusting exUser [exSigner]). split; [exact LD|reflexivity].
Qed.
(* In the second in which the key expires the first lookup finds it and the next does not. *)
Theorem C196_second_refuted : exists C cb g trust w id now sv k p w1, lookupRemote C cb sv allFine now id (trusting g trust) w = (Ok k, p, w1) /\ exists e, lookupRemote C cb sv allFine now id p w1 = (Err e, p, w1).
Proof.
  exists toy, (callbacksOf toy [Dir []]), exUser, [exSigner], [Dir []], (pkID exPk), 1100%Z, exService, exPk.
  exists (snd (fst (lookupRemote toy (callbacksOf toy [Dir []]) exService allFine 1100 (pkID exPk) (trusting exUser [exSigner]) [Dir []]))), [Dir []]. split; [vm_compute; reflexivity|]. exists "keypool: expired key"%string. vm_compute. reflexivity.
Qed.
(* A row of a table that holds no key hides the service: it is not asked. *)
Theorem C196_hidden_refuted : exists C g trust w id now k m, keyUnmarshal m = Ok k /\ pkID k = id /\ proper k /\ (now < pkExp k)%Z /\ (exists p1 w1, lookupRemote C (callbacksOf C [Db []]) (fun _ => Ok m) allFine now id (trusting g trust) [Db []] = (Ok k, p1, w1)) /\
  forall sv, exists e, lookupRemote C (callbacksOf C w) sv allFine now id (trusting g trust) w = (Err e, trusting g trust, w).
Proof.
  exists toy, exUser, [exSigner], [Db [(hexenc (pkID exPk), ([], b64enc [48]))]], (pkID exPk), 1000%Z, exPk, exDer. split; [exact exDer_key|]. split; [reflexivity|]. split; [exact proper_exPk|]. split; [reflexivity|].
  split; [exists (snd (fst (lookupRemote toy (callbacksOf toy [Db []]) exService allFine 1000 (pkID exPk) (trusting exUser [exSigner]) [Db []]))), (snd (lookupRemote toy (callbacksOf toy [Db []]) exService allFine 1000 (pkID exPk) (trusting exUser [exSigner]) [Db []])); vm_compute; reflexivity|].
  intros sv. assert (F : exists f, cFetch (callbacksOf toy [Db [(hexenc (pkID exPk), ([], b64enc [48]))]]) = Some f /\ f allFine [Db [(hexenc (pkID exPk), ([], b64enc [48]))]] (pkID exPk) = Ok [48]) by (eexists; split; [reflexivity|vm_compute; reflexivity]).
  destruct F as (f & F1 & F2). assert (U : exists e, keyUnmarshal [48] = Err e) by (eexists; vm_compute; reflexivity). destruct U as [e U]. exists e. unfold lookupRemote. cbn [trusting oKeys mget]. unfold chainFetch. rewrite F1, F2, U. reflexivity.
Qed.
Print Assumptions C196_sound.
Print Assumptions C196_found.
Print Assumptions C196_kept_partial.
Print Assumptions C196_refuted.
Print Assumptions C196_second_refuted.
Print Assumptions C196_hidden_refuted.
