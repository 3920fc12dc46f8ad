(* Signing keys, key pool, tokens and packets of the service guard: C61, C62, C63, C90 to C96. *)
From Verif Require Import Base Base64Model Base64Proofs CryptoModel Maps Asn1Model Asn1Proofs KeyPoolModel.
Local Open Scope N_scope.

Lemma app_inj_len {A} (a b c d : list A) : length a = length c -> a ++ b = c ++ d -> a = c /\ b = d.
Proof. revert c. induction a as [|x a IH]; intros [|y c] L E; cbn [length app] in *; try discriminate; [auto|]. injection E as -> E. destruct (IH c ltac:(lia) E). subst. auto. Qed.
Lemma lenN_length {A} (a b : list A) : lenN a = lenN b -> length a = length b.
Proof. unfold lenN. lia. Qed.
Lemma bigBytes_dec n : be_dec (bigBytes n) = n.
Proof.
  unfold bigBytes. apply be_dec_be_id. rewrite N2Nat.id. pose proof (N.size_gt n). assert (N.size n <= 8 * ((N.size n + 7) / 8)) by (pose proof (N.div_mod' (N.size n + 7) 8); pose proof (N.mod_lt (N.size n + 7) 8); lia).
  change 256 with (2 ^ 8). rewrite <- N.pow_mul_r. apply N.lt_le_trans with (2 ^ N.size n); [assumption|]. apply N.pow_le_mono_r; [discriminate|assumption].
Qed.
Lemma bigBytes_wf n : wfb (bigBytes n).
Proof. apply wfb_be. Qed.
Lemma arrN_id n b : lenN b = n -> arrN n b = b.
Proof. intros L. unfold arrN. apply takeN_app, L. Qed.

(* ---------------- C61 ---------------- *)
Inductive op := OTrust (key : bytes) | OLoad (now : Z) (k : pubKey) | OLookup (e : env) (id : bytes) | OCurrent (e : env) | OFiles (now : Z) (files : list (option bytes)).
Definition apply (C : Crypto) (o : op) (p : pool) : pool :=
  match o with
  | OTrust key => addVerifyKey key p
  | OLoad now k => snd (loadKey C now k p)
  | OLookup e id => snd (lookupKey C e id p)
  | OCurrent e => snd (current C e p)
  | OFiles now files => snd (loadFiles C now files p)
  end.
Definition runOps (C : Crypto) (ops : list op) (p : pool) : pool := fold_left (fun p o => apply C o p) ops p.
Definition added (o : op) : list bytes := match o with OTrust k => [k] | _ => [] end.
Definition times (o : op) : list Z := match o with OTrust _ => [] | OLoad t _ => [t] | OLookup e _ => [eNow e] | OCurrent e => [eNow e] | OFiles t _ => [t] end.
(* a key that may be in the pool: trusted signers and the times at which something was loaded *)
Record sound (C : Crypto) (g : generator) (trust : list bytes) (ts : list Z) (k : pubKey) : Prop := {
  soID : pkID k = sha256 C (keyImage k);
  soSig : edverify C (pkSigner k) (pkID k) (pkSig k) = true;
  soTrust : In (pkSigner k) trust \/ nPub g = Some (pkSigner k);
  soUsage : nUsage g = [] \/ pkUsage k = nUsage g;
  soTime : exists t, In t ts /\ (t <= pkExp k)%Z }.
Definition genOk (C : Crypto) (g : generator) : Prop := (0 <= nExpire g)%Z /\ forall pub priv, nPub g = Some pub -> nPriv g = Some priv -> pub = edpub C priv.
Lemma sound_mono C g tr tr' ts ts' k : incl tr tr' -> incl ts ts' -> sound C g tr ts k -> sound C g tr' ts' k.
Proof. intros I J [A B T U (t & E & F)]. constructor; auto; [destruct T; auto|]. exists t. auto. Qed.
Lemma existsb_In k l : existsb (beq k) l = true -> In k l.
Proof. intros E. apply existsb_exists in E as (x & I & Q). apply beq_spec in Q. subst. exact I. Qed.
Local Ltac refused := split; [reflexivity|]; split; [reflexivity|]; split; [left; split; reflexivity|]; split; [intros [Q|Q]; [discriminate Q|unfold errExists in Q; discriminate Q]|intros Q; discriminate Q].
Lemma loadKey_spec C now k p r p' : loadKey C now k p = (r, p') ->
  oGen p' = oGen p /\ oTrust p' = oTrust p /\
  ((oKeys p' = oKeys p /\ is_ok r = false) \/ (r = Ok (pkID k) /\ oKeys p' = mset (pkID k) k (oKeys p))) /\
  (r = Ok (pkID k) \/ r = Err errExists -> sound C (oGen p) (oTrust p) [now] k) /\ (is_ok r = true -> r = Ok (pkID k)).
Proof.
  unfold loadKey. intros E.
  destruct (negb (beq (nUsage (oGen p)) []) && negb (beq (pkUsage k) (nUsage (oGen p)))) eqn:U; [injection E as <- <-; refused|].
  destruct (pkExp k <? now)%Z eqn:X; [injection E as <- <-; refused|].
  destruct (hasVerifyKey (pkSigner k) p) eqn:H; cbn [negb] in E; [|injection E as <- <-; refused].
  destruct (keyVerify C k (pkSigner k)) eqn:V; cbn [negb] in E; [|injection E as <- <-; refused].
  assert (SO : sound C (oGen p) (oTrust p) [now] k).
  { unfold keyVerify in V. apply andb_true_iff in V as [V1 V2]. apply beq_spec in V1. unfold calcKeyID in *. constructor.
    - congruence.
    - rewrite <- V1. exact V2.
    - left. apply existsb_In, H.
    - apply andb_false_iff in U as [U|U]; apply negb_false_iff, beq_spec in U; auto.
    - exists now. split; [left; reflexivity|]. apply Z.ltb_ge, X. }
  destruct (mget (pkID k) (oKeys p)); injection E as <- <-; (split; [reflexivity|]; split; [reflexivity|]; split; [cbn [is_ok oKeys]; auto|]; split; auto; discriminate).
Qed.
Lemma genKey_spec C g now pt k : genOk C g -> genKey C g now pt = Ok k -> sound C g [] [now] k /\ pkExp k = (now + nExpire g)%Z.
Proof.
  intros [GE GP] E. unfold genKey in E. destruct (nPriv g) as [priv|] eqn:P; [|discriminate]. destruct pt as [[x y]|]; [|discriminate]. destruct (nPub g) as [pub|] eqn:Q; [|discriminate].
  specialize (GP pub priv eq_refl eq_refl). cbv zeta in E. injection E as <-. split; [|reflexivity]. constructor; cbn [pkID pkX pkY pkExp pkUsage pkSigner pkSig]; auto.
  - rewrite GP. apply edverify_sign.
  - exists now. split; [left; reflexivity|lia].
Qed.
Definition poolOk (C : Crypto) (g : generator) (trust : list bytes) (ts : list Z) (p : pool) : Prop :=
  oGen p = g /\ (forall x, In x (oTrust p) -> In x trust) /\ forall id k, mget id (oKeys p) = Some k -> id = pkID k /\ sound C g trust ts k.
Lemma poolOk_mono C g tr tr' ts ts' p : incl tr tr' -> incl ts ts' -> poolOk C g tr ts p -> poolOk C g tr' ts' p.
Proof. intros I J (A & B & D). split; [exact A|]. split; [auto|]. intros id k M. destruct (D id k M). split; [assumption|eapply sound_mono; eauto]. Qed.
Lemma poolOk_set C g tr ts p p' k : poolOk C g tr ts p -> sound C g tr ts k -> oGen p' = oGen p -> oTrust p' = oTrust p -> oKeys p' = mset (pkID k) k (oKeys p) -> poolOk C g tr ts p'.
Proof.
  intros (A & B & D) S G T K. split; [congruence|]. split; [rewrite T; exact B|]. intros id k' M. rewrite K, mget_mset in M. destruct (beq id (pkID k)) eqn:E; [|apply D, M].
  apply beq_spec in E. assert (k' = k) as -> by congruence. auto.
Qed.
Lemma loadKey_ok C g tr ts now k p : poolOk C g tr ts p -> In now ts -> poolOk C g tr ts (snd (loadKey C now k p)).
Proof.
  intros O I. destruct (loadKey C now k p) as [r p'] eqn:E. apply loadKey_spec in E as (G & T & K & S & _). cbn [snd]. destruct K as [[K _]|[-> K]].
  - destruct O as (A & B & D). split; [congruence|]. rewrite T, K. auto.
  - eapply poolOk_set; eauto. specialize (S (or_introl eq_refl)). destruct O as (A & B & _). rewrite A in S. eapply sound_mono; [| |exact S]; [exact B|]. intros x [<-|[]]. exact I.
Qed.
Lemma loadFiles_ok C g tr ts now files : forall p, poolOk C g tr ts p -> In now ts -> poolOk C g tr ts (snd (loadFiles C now files p)).
Proof.
  induction files as [|[d|] files IH]; intros p O I; cbn [loadFiles]; [exact O| |exact O]. destruct (keyUnmarshal d); try exact O. apply IH; [apply loadKey_ok; assumption|exact I].
Qed.
Lemma lookupKey_snd C e id p : snd (lookupKey C e id p) = p \/ exists k, snd (lookupKey C e id p) = snd (loadKey C (eNow e) k p).
Proof.
  unfold lookupKey. destruct (lookup_ _ _ _), (mget id (oKeys p)), (eFetch e) as [fetch|]; auto; destruct (fetch id) as [d|s|]; auto; destruct (keyUnmarshal d) as [k|s|]; auto; right; exists k; destruct (loadKey _ _ _ _) as [[x|s|] p']; auto; try (destruct (String.eqb _ _)); try (destruct (beq (pkID k) id)); reflexivity.
Qed.
Lemma current_ok C g tr ts e p : genOk C g -> poolOk C g tr ts p -> In (eNow e) ts -> poolOk C g tr ts (snd (current C e p)).
Proof.
  intros GO O I. unfold current. destruct (nPriv (oGen p)); [|exact O]. cbv zeta. destruct (match oCurrent p with None => true | Some k => _ end).
  - pose proof O as (A & _). rewrite A. destruct (genKey C g (eNow e) (ePoint e)) as [k|s|] eqn:GK; [|exact O|exact O]. destruct (writeKey e k); [|exact O|exact O]. cbn [snd]. eapply poolOk_set; [exact O| |symmetry; exact A|reflexivity|reflexivity].
    apply genKey_spec in GK as [S _]; [|exact GO]. eapply sound_mono; [| |exact S]; [intros x []|intros x [<-|[]]; exact I].
  - destruct (oCurrent p); exact O.
Qed.
Lemma apply_ok C g tr ts o p : genOk C g -> poolOk C g tr ts p -> incl (times o) ts -> incl (added o) tr -> poolOk C g tr ts (apply C o p).
Proof.
  intros GO O I J. destruct o; cbn [apply times added] in *.
  - destruct O as (A & B & D). split; [exact A|]. split; [|exact D]. cbn [addVerifyKey oTrust]. intros x [<-|H]; [apply J; left; reflexivity|auto].
  - apply loadKey_ok; [exact O|apply I; left; reflexivity].
  - destruct (lookupKey_snd C e id p) as [->|[k ->]]; [exact O|]. apply loadKey_ok; [exact O|apply I; left; reflexivity].
  - apply current_ok; [exact GO|exact O|apply I; left; reflexivity].
  - apply loadFiles_ok; [exact O|apply I; left; reflexivity].
Qed.
Lemma runOps_ok C g ops : forall tr ts p, genOk C g -> poolOk C g tr ts p -> poolOk C g (tr ++ flat_map added ops) (ts ++ flat_map times ops) (runOps C ops p).
Proof.
  induction ops as [|o ops IH]; intros tr ts p GO O; cbn [flat_map runOps fold_left]; [rewrite !app_nil_r; exact O|]. rewrite !app_assoc. apply IH; [exact GO|].
  apply apply_ok; [exact GO| |apply incl_appr, incl_refl|apply incl_appr, incl_refl]. eapply poolOk_mono; [| |exact O]; apply incl_appl, incl_refl.
Qed.
(* all sequences of operations *)
Theorem C61_pool : forall C g ops id k, genOk C g -> mget id (oKeys (runOps C ops (newPool g))) = Some k -> id = pkID k /\ sound C g (flat_map added ops) (flat_map times ops) k.
Proof.
  intros C g ops id k GO M. destruct (runOps_ok C g ops [] [] (newPool g) GO) as (_ & _ & D); [|exact (D id k M)]. split; [reflexivity|]. split; [intros x []|]. cbn. discriminate.
Qed.
(* what a lookup returns *)
Theorem C61_lookup : forall C g ops e id k p', genOk C g -> lookupKey C e id (runOps C ops (newPool g)) = (Ok k, p') ->
  pkID k = id /\ (eNow e <= pkExp k)%Z /\ sound C g (flat_map added ops) (eNow e :: flat_map times ops) k.
Proof.
  intros C g ops e id k p' GO E. set (p := runOps C ops (newPool g)) in *.
  assert (O : poolOk C g (flat_map added ops) (flat_map times ops) p). { apply (runOps_ok C g ops [] [] (newPool g) GO). split; [reflexivity|]. split; [intros x []|]. cbn. discriminate. }
  unfold lookupKey, lookup_ in E. destruct O as (A & B & D). destruct (mget id (oKeys p)) as [d|] eqn:M.
  - destruct (eNow e <? pkExp d)%Z eqn:X; [|destruct (eFetch e); discriminate]. assert (k = d) as -> by (destruct (eFetch e); congruence). destruct (D id d M) as [<- S]. apply Z.ltb_lt in X. split; [reflexivity|]. split; [lia|]. eapply sound_mono; [| |exact S]; [apply incl_refl|apply incl_tl, incl_refl].
  - destruct (eFetch e) as [fetch|]; [|discriminate]. destruct (fetch id) as [d|s|]; [|discriminate|discriminate]. destruct (keyUnmarshal d) as [k'|s|]; [|discriminate|discriminate]. destruct (loadKey C (eNow e) k' p) as [r q] eqn:L. apply loadKey_spec in L as (_ & _ & _ & S & R).
    assert (S' : sound C g (oTrust p) [eNow e] k' -> pkID k = id /\ k = k' -> pkID k = id /\ (eNow e <= pkExp k)%Z /\ sound C g (flat_map added ops) (eNow e :: flat_map times ops) k).
    { intros SO [I ->]. split; [exact I|]. split; [destruct SO as [_ _ _ _ (t & [<-|[]] & LE)]; exact LE|]. eapply sound_mono; [| |exact SO]; [exact B|]. intros x [<-|[]]. left. reflexivity. }
    rewrite A in S. destruct r as [x|s|]; [| |discriminate].
    + destruct (beq (pkID k') id) eqn:Q; [|discriminate]. apply beq_spec in Q. apply S'; [apply S; left; apply R; reflexivity|]. assert (EK : k = k') by congruence. rewrite EK. auto.
    + destruct (String.eqb s errExists) eqn:SE; [|discriminate]. apply String.eqb_eq in SE. destruct (beq (pkID k') id) eqn:Q; [|discriminate]. apply beq_spec in Q. apply S'; [apply S; right; congruence|]. assert (EK : k = k') by congruence. rewrite EK. auto.
Qed.
Definition exGen : generator := mkGen (str "Message") 100 (Some (edpub toy (str "signer"))) (Some (str "signer")).
Definition exUser : generator := mkGen (str "Message") 0 None None.
Definition exEnv (now : Z) : env := mkEnv now None true (Some (7, 9)).
Definition exKey (now : Z) : pubKey := match genKey toy exGen now (Some (7, 9)) with Ok k => k | _ => mkPK [] 0 0 0 [] [] [] end.
Definition exOps : list op := [OLoad 1000 (exKey 1000); OTrust (edpub toy (str "signer")); OLoad 1101 (exKey 1000); OLoad 1050 (exKey 1000)].
Example C61_ex : genOk toy exUser /\ map (fun n => match mget (pkID (exKey 1000)) (oKeys (runOps toy (firstn n exOps) (newPool exUser))) with Some _ => true | None => false end) [1%nat; 2%nat; 3%nat; 4%nat] = [false; false; false; true].
Proof. split; [split; [cbn; lia|discriminate]|]. vm_compute. reflexivity. Qed.
Definition exFetch : env := mkEnv 1060 (Some (fun _ => match keyMarshal (exKey 1000) with Some d => Ok d | None => Err "none"%string end)) true None.
Example C61_lookup_ex : is_ok (fst (lookupKey toy exFetch (pkID (exKey 1000)) (runOps toy [OTrust (edpub toy (str "signer"))] (newPool exUser)))) = true.
Proof. vm_compute. reflexivity. Qed.

(* ---------------- C62 ---------------- *)
(* forty seconds after the key of lifetime one hundred expired it is still the current one *)
Theorem C62_refuted : exists C g e1 e2 k prev p1 p2, genOk C g /\ current C e1 (newPool g) = (Ok (k, None), p1) /\ current C e2 p1 = (Ok (k, prev), p2) /\ (pkExp k < eNow e2)%Z.
Proof.
  exists toy, exGen, (exEnv 1000), (exEnv 1140), (exKey 1000), None. eexists. eexists. split; [split; [cbn; lia|intros pub priv A B; unfold exGen in A, B; cbn [nPub nPriv] in A, B; congruence]|]. split; [vm_compute; reflexivity|]. split; vm_compute; reflexivity.
Qed.
(* It expired at most half a lifetime ago, and a key is replaced only after its expiry.  Missing: half a lifetime before its expiry is meant. *)
Theorem C62_late_partial : forall C g e p k prev p', genOk C g -> oGen p = g -> current C e p = (Ok (k, prev), p') ->
  (eNow e - nExpire g / 2 <= pkExp k)%Z /\ oCurrent p' = Some k /\ (oCurrent p = Some k \/ (pkExp k = eNow e + nExpire g)%Z /\ sound C g [] [eNow e] k /\ mget (pkID k) (oKeys p') = Some k /\ forall c, oCurrent p = Some c -> (pkExp c < eNow e - nExpire g / 2)%Z /\ prev = Some c).
Proof.
  intros C g e p k prev p' GO G E. unfold current in E. rewrite G in E. destruct (nPriv g); [|discriminate]. cbv zeta in E. destruct GO as [GE GP]. rewrite (Z.quot_div_nonneg (nExpire g) 2) in E by lia.
  assert (DG : (0 <= nExpire g / 2)%Z) by (apply Z.div_pos; lia).
  destruct (oCurrent p) as [c|] eqn:OC.
  - destruct (pkExp c <? eNow e - nExpire g / 2)%Z eqn:X.
    + destruct (genKey C g (eNow e) (ePoint e)) as [k'|s|] eqn:GK; [|discriminate|discriminate]. destruct (writeKey e k'); [|discriminate|discriminate]. injection E as <- <- <-. apply genKey_spec in GK as [S T]; [|split; assumption]. split; [lia|]. split; [reflexivity|]. right. split; [exact T|]. split; [exact S|]. split; [apply mget_mset_same|]. intros c' Q. injection Q as <-. apply Z.ltb_lt in X. auto.
    + injection E as <- <- <-. apply Z.ltb_ge in X. split; [exact X|]. split; [exact OC|]. left. reflexivity.
  - destruct (genKey C g (eNow e) (ePoint e)) as [k'|s|] eqn:GK; [|discriminate|discriminate]. destruct (writeKey e k'); [|discriminate|discriminate]. injection E as <- <- <-. apply genKey_spec in GK as [S T]; [|split; assumption]. split; [lia|]. split; [reflexivity|]. right. split; [exact T|]. split; [exact S|]. split; [apply mget_mset_same|]. discriminate.
Qed.
Example C62_late_ex : is_ok (fst (current toy (exEnv 1151) (snd (current toy (exEnv 1000) (newPool exGen))))) = true /\ oCurrent (snd (current toy (exEnv 1151) (snd (current toy (exEnv 1000) (newPool exGen))))) = Some (exKey 1151).
Proof. split; vm_compute; reflexivity. Qed.

(* ---------------- C63, C90 ---------------- *)
(* two keys with different points and the same identifier, whatever the hash function *)
Theorem C63_refuted : exists k1 k2, pkX k1 <> pkX k2 /\ pkY k1 <> pkY k2 /\ forall C, calcKeyID C k1 = calcKeyID C k2.
Proof. exists (mkPK [] 1 515 0 [] [] []), (mkPK [] 258 3 0 [] [] []). split; [discriminate|]. split; [discriminate|]. intros C. reflexivity. Qed.
Lemma u64z_inj a b : (- 2 ^ 63 <= a < 2 ^ 63)%Z -> (- 2 ^ 63 <= b < 2 ^ 63)%Z -> u64z a = u64z b -> a = b.
Proof.
  intros A B E. unfold u64z in E. apply Z2N.inj in E; [|apply Z.mod_pos_bound; reflexivity|apply Z.mod_pos_bound; reflexivity].
  change (2 ^ 64)%Z with 18446744073709551616%Z in E. change (2 ^ 63)%Z with 9223372036854775808%Z in A, B. pose proof (Z.div_mod a 18446744073709551616 ltac:(lia)). pose proof (Z.div_mod b 18446744073709551616 ltac:(lia)). lia.
Qed.
(* With coordinates of the same length the identifier determines the key, short of a collision.  Missing: the lengths are not part of the hashed text. *)
Theorem C63_width_partial : forall C k1 k2, lenN (bigBytes (pkX k1)) = lenN (bigBytes (pkX k2)) -> lenN (bigBytes (pkY k1)) = lenN (bigBytes (pkY k2)) -> lenN (pkSigner k1) = 32 -> lenN (pkSigner k2) = 32 ->
  (- 2 ^ 63 <= pkExp k1 < 2 ^ 63)%Z -> (- 2 ^ 63 <= pkExp k2 < 2 ^ 63)%Z -> (sha256 C (keyImage k1) = sha256 C (keyImage k2) -> keyImage k1 = keyImage k2) ->
  calcKeyID C k1 = calcKeyID C k2 -> pkX k1 = pkX k2 /\ pkY k1 = pkY k2 /\ pkExp k1 = pkExp k2 /\ pkUsage k1 = pkUsage k2 /\ pkSigner k1 = pkSigner k2.
Proof.
  intros C k1 k2 LX LY S1 S2 E1 E2 CF E. apply CF in E. unfold keyImage in E. apply app_inj_len in E as [X E]; [|apply lenN_length, LX]. apply app_inj_len in E as [Y E]; [|apply lenN_length, LY]. apply app_inj_len in E as [T E]; [|apply lenN_length; rewrite !lenN_be; reflexivity]. apply app_inj_len in E as [_ E]; [|reflexivity].
  assert (LU : lenN (pkUsage k1) = lenN (pkUsage k2)) by (apply (f_equal lenN) in E; rewrite !lenN_app in E; lia).
  apply app_inj_len in E as [U E]; [|apply lenN_length, LU]. apply app_inj_len in E as [_ SG]; [|reflexivity].
  split; [rewrite <- (bigBytes_dec (pkX k1)), X; apply bigBytes_dec|]. split; [rewrite <- (bigBytes_dec (pkY k1)), Y; apply bigBytes_dec|]. split; [|auto].
  apply u64z_inj; [assumption|assumption|]. apply (f_equal be_dec) in T. rewrite !be_dec_be in T. change (256 ^ N.of_nat 8) with (2 ^ 64) in T. unfold u64z in *. rewrite !N.mod_small in T; [exact T| |]; change (2 ^ 64) with (Z.to_N (2 ^ 64)); apply Z2N.inj_lt; try apply Z.mod_pos_bound; try reflexivity; discriminate.
Qed.
Example C63_width_ex : lenN (bigBytes 1) = lenN (bigBytes 2) /\ lenN (bigBytes 300) = lenN (bigBytes 301) /\ lenN (edpub toy []) = 32.
Proof. split; [|split]; vm_compute; reflexivity. Qed.
(* every signer's signature of one key is a valid signature of another one with a different expiry date and usage *)
Definition shortKey (sg : bytes) : pubKey := mkPK [] 1 (be_dec [2; 0; 0; 0; 0; 255; 0; 0; 0; 58]) 1000 (str "test") sg [].
Definition longKey (sg : bytes) : pubKey := mkPK [] 1 2 (Z.of_N (be_dec [0; 0; 0; 0; 255; 0; 0; 0])) (be 8 1000 ++ [58] ++ str "test") sg [].
Definition signed (C : Crypto) (priv : bytes) (k : pubKey) : pubKey :=
  mkPK (calcKeyID C k) (pkX k) (pkY k) (pkExp k) (pkUsage k) (pkSigner k) (edsign C priv (calcKeyID C k)).
Theorem C90_refuted : forall C priv, exists k k', pkSigner k = edpub C priv /\ keyVerify C k (edpub C priv) = true /\ keyVerify C k' (edpub C priv) = true /\ pkSig k' = pkSig k /\ (pkExp k < pkExp k')%Z /\ pkUsage k <> pkUsage k'.
Proof.
  intros C priv. exists (signed C priv (shortKey (edpub C priv))), (signed C priv (longKey (edpub C priv))).
  assert (E : calcKeyID C (longKey (edpub C priv)) = calcKeyID C (shortKey (edpub C priv))) by reflexivity.
  assert (V : forall k, keyVerify C (signed C priv k) (edpub C priv) = true).
  { intros k. unfold keyVerify. change (calcKeyID C (signed C priv k)) with (calcKeyID C k). cbn [signed pkID pkSig]. rewrite beq_refl, edverify_sign. reflexivity. }
  split; [reflexivity|]. split; [apply V|]. split; [apply V|]. split; [cbn [signed pkSig]; rewrite E; reflexivity|]. split; [reflexivity|]. intros Q. apply (f_equal (@length N)) in Q. vm_compute in Q. discriminate.
Qed.
(* Missing: as for C63, both keys must have coordinates of the same length. *)
Theorem C90_width_partial : forall C k1 k2 signer, keyVerify C k1 signer = true -> keyVerify C k2 signer = true -> pkID k1 = pkID k2 -> lenN (bigBytes (pkX k1)) = lenN (bigBytes (pkX k2)) -> lenN (bigBytes (pkY k1)) = lenN (bigBytes (pkY k2)) -> lenN (pkSigner k1) = 32 -> lenN (pkSigner k2) = 32 ->
  (- 2 ^ 63 <= pkExp k1 < 2 ^ 63)%Z -> (- 2 ^ 63 <= pkExp k2 < 2 ^ 63)%Z -> (sha256 C (keyImage k1) = sha256 C (keyImage k2) -> keyImage k1 = keyImage k2) ->
  pkExp k1 = pkExp k2 /\ pkUsage k1 = pkUsage k2 /\ pkX k1 = pkX k2 /\ pkY k1 = pkY k2.
Proof.
  intros C k1 k2 signer V1 V2 I LX LY S1 S2 E1 E2 CF. unfold keyVerify in *. apply andb_true_iff in V1 as [V1 _], V2 as [V2 _]. apply beq_spec in V1, V2.
  destruct (C63_width_partial C k1 k2 LX LY S1 S2 E1 E2 CF ltac:(congruence)) as (A & B & D & F & _). auto.
Qed.

(* ---------------- C91: stored keys ---------------- *)
Theorem C91_codec : forall k d r, keyMarshal k = Some d -> lenN d < 2 ^ 31 -> lenN (pkID k) = 32 -> lenN (pkSigner k) = 32 -> lenN (pkSig k) = 64 -> (- 2 ^ 63 <= pkExp k < 2 ^ 63)%Z ->
  lenN (pkUsage k) < 2 ^ 31 -> lenN (bigBytes (pkX k)) < 2 ^ 31 -> lenN (bigBytes (pkY k)) < 2 ^ 31 -> keyUnmarshal (d ++ r) = Ok k.
Proof.
  intros k d r E L LI LS LG XP LU LX LY. unfold keyUnmarshal. rewrite (derUnmarshal_marshal _ (keyFields k) d r); [|unfold keyFields; repeat (constructor; [cbn [dvOk]; try assumption; lia|]); constructor|exact E|exact L].
  unfold keyFields. cbn [rbind]. rewrite !bigBytes_dec, !arrN_id by assumption. destruct k; reflexivity.
Qed.
Theorem C91_marshals : forall k, utf8ok (pkUsage k) = true -> exists d, keyMarshal k = Some d.
Proof. intros k U. unfold keyMarshal, keyFields, derMarshal. cbn [encFields encField]. destruct (forallb isPrintable (pkUsage k)); [eexists; reflexivity|]. rewrite U. eexists. reflexivity. Qed.
Example C91_ex : match keyMarshal (exKey 1000) with Some d => keyUnmarshal d = Ok (exKey 1000) /\ lenN (pkID (exKey 1000)) = 32 /\ lenN (pkSig (exKey 1000)) = 64 | None => False end.
Proof. vm_compute. repeat split. Qed.
(* the key table: what was written first under an identifier is what is fetched, over all sequences of later writes *)
Definition writes (l : list (bool * bytes * bytes * bytes)) (t : keyTable) : keyTable := fold_left (fun t w => let '(down, id, u, d) := w in snd (dbWrite down id u d t)) l t.
Lemma dbWrite_keeps down id u d t key v : mget key t = Some v -> mget key (snd (dbWrite down id u d t)) = Some v.
Proof.
  intros M. unfold dbWrite, dbInsert. destruct down; [exact M|]. destruct (mget (hexenc id) t) eqn:Q; [exact M|]. cbn [snd]. rewrite mget_mset. destruct (beq key (hexenc id)) eqn:B; [apply beq_spec in B; congruence|exact M].
Qed.
Theorem C91_fetch : forall t id u d l, mget (hexenc id) t = None -> wfb d -> dbFetch id (writes l (snd (dbWrite false id u d t))) = Ok d.
Proof.
  intros t id u d l M W. assert (G : mget (hexenc id) (snd (dbWrite false id u d t)) = Some (u, b64enc d)) by (unfold dbWrite, dbInsert; rewrite M; cbn [snd]; apply mget_mset_same).
  assert (H : mget (hexenc id) (writes l (snd (dbWrite false id u d t))) = Some (u, b64enc d)).
  { revert G. generalize (snd (dbWrite false id u d t)). induction l as [|[[[dn i] v] e] l IH]; intros t' G; [exact G|]. cbn [writes fold_left]. apply IH. apply dbWrite_keeps, G. }
  unfold dbFetch. rewrite H, b64dec_enc by exact W. reflexivity.
Qed.
Example C91_fetch_ex : mget (hexenc (str "id")) (@nil (bytes * (bytes * bytes))) = None /\ dbFetch (str "id") (writes [(false, str "id", [], str "other"); (true, str "x", [], [])] (snd (dbWrite false (str "id") (str "u") (str "data") []))) = Ok (str "data").
Proof. split; vm_compute; reflexivity. Qed.

(* ---------------- C92: failed writes ---------------- *)
Theorem C92_refuted : forall id u d, exists t, dbWrite true id u d t = (Ok tt, t) /\ is_ok (dbFetch id t) = false.
Proof. intros id u d. exists []. split; reflexivity. Qed.
(* Missing: an error of the database is not reported.  Writing never harms stored keys, and it stores the key if the database works. *)
Theorem C92_works_partial : forall id u d t, mget (hexenc id) t = None -> wfb d -> exists t', dbWrite false id u d t = (Ok tt, t') /\ dbFetch id t' = Ok d /\ forall key v, mget key t = Some v -> mget key t' = Some v.
Proof.
  intros id u d t M W. exists (snd (dbWrite false id u d t)). split; [unfold dbWrite, dbInsert; rewrite M; reflexivity|]. split; [apply (C91_fetch t id u d []); assumption|]. intros key v. apply dbWrite_keeps.
Qed.

(* ---------------- C93: threads ---------------- *)
Definition inMap (p : pc) : bool := match p with PReading | PStoring _ => true | _ => false end.
Definition storing (p : pc) : bool := match p with PStoring _ => true | _ => false end.
(* an assignment to the map during another access *)
Definition race (t : threads) : Prop := exists i j a b, i <> j /\ nth_error t i = Some a /\ nth_error t j = Some b /\ storing a = true /\ inMap b = true.
Definition fresh_ (t : threads) : Prop := Forall (fun p => exists c, p = PStart c) t.
(* two lookups of keys that have to be fetched *)
Theorem C93_refuted : exists t u, fresh_ t /\ treach true t u /\ race u.
Proof.
  exists [PStart CLookup; PStart CLookup], [PStoring CLookup; PStoring CLookup]. split; [repeat constructor; eauto|]. split.
  - eapply RStep; [|exact (SFetched true [PStoring CLookup] [] eq_refl)]. eapply RStep; [|exact (SFetched true [] [PReading] eq_refl)]. eapply RStep; [|exact (SRLock true [PReading] [] eq_refl)]. eapply RStep; [|exact (SRLock true [] [PStart CLookup] eq_refl)]. apply RRefl.
  - exists 0%nat, 1%nat, (PStoring CLookup), (PStoring CLookup). split; [discriminate|]. repeat split.
Qed.
(* Without a fetch callback there is no race, for any number of threads.  Missing: lookups that fetch write under the read lock. *)
Definition lockOk (t : threads) : Prop := ~ In (PStoring CLookup) t /\ forall a b, t = a ++ PStoring CWrite :: b -> Forall (fun p => inMap p = false) (a ++ b).
Lemma split_two {A} (a : list A) x b c y d : a ++ x :: b = c ++ y :: d -> (a = c /\ x = y /\ b = d) \/ (exists m, a = c ++ y :: m /\ d = m ++ x :: b) \/ (exists m, c = a ++ x :: m /\ b = m ++ y :: d).
Proof.
  revert c. induction a as [|z a IH]; intros [|w c] E; cbn [app] in E.
  - injection E as -> ->. auto.
  - injection E as -> ->. right. right. exists c. auto.
  - injection E as -> <-. right. left. exists a. auto.
  - injection E as -> E. apply IH in E as [(-> & -> & ->)|[(m & -> & ->)|(m & -> & ->)]]; [auto|right; left; exists m; auto|right; right; exists m; auto].
Qed.
Lemma lockOk_replace a p q b : lockOk (a ++ p :: b) -> q <> PStoring CLookup -> (q = PStoring CWrite -> Forall (fun p => inMap p = false) (a ++ b)) ->
  (inMap q = true -> ~ In (PStoring CWrite) (a ++ b)) -> lockOk (a ++ q :: b).
Proof.
  intros [N0 W] Q1 Q2 Q3. split.
  - intros I. apply in_app_or in I as [I|[I|I]]; [apply N0, in_or_app; auto|congruence|apply N0, in_or_app; right; right; exact I].
  - intros a' b' E. apply split_two in E as [(-> & -> & ->)|[(m & -> & ->)|(m & -> & ->)]].
    + apply Q2. reflexivity.
    + specialize (W a' (m ++ p :: b)). rewrite <- app_assoc in W. specialize (W eq_refl). apply Forall_app in W as [W1 W2]. apply Forall_app in W2 as [W2 W3]. inversion_clear W3. apply Forall_app. split; [exact W1|]. apply Forall_app. split; [exact W2|]. constructor; [|assumption].
      destruct (inMap q) eqn:IM; [|reflexivity]. elim (Q3 eq_refl). apply in_or_app. left. apply in_or_app. right. left. reflexivity.
    + specialize (W (a ++ p :: m) b'). rewrite <- app_assoc in W. specialize (W eq_refl). apply Forall_app in W as [W1 W2]. apply Forall_app in W1 as [W1 W3]. inversion_clear W3. apply Forall_app. split; [|exact W2]. apply Forall_app. split; [exact W1|]. constructor; [|assumption].
      destruct (inMap q) eqn:IM; [|reflexivity]. elim (Q3 eq_refl). apply in_or_app. right. apply in_or_app. right. left. reflexivity.
Qed.
Lemma tstep_ok t u : tstep false t u -> lockOk t -> lockOk u.
Proof.
  intros S O. destruct S as [a b R|a b|a b F|a b R|a b c].
  - apply (lockOk_replace a (PStart CLookup) PReading b O); [discriminate|discriminate|]. intros _ I. unfold canRLock in R. apply negb_true_iff in R.
    assert (E : existsb writer (a ++ PStart CLookup :: b) = true) by (apply existsb_exists; exists (PStoring CWrite); split; [apply in_app_or in I as [I|I]; apply in_or_app; [left; exact I|right; right; exact I]|reflexivity]). congruence.
  - apply (lockOk_replace a PReading PDone b O); discriminate.
  - discriminate.
  - apply (lockOk_replace a (PStart CWrite) (PStoring CWrite) b O); [discriminate| |].
    + intros _. unfold canLock in R. apply andb_true_iff in R as [R1 R2]. apply negb_true_iff in R1, R2. apply Forall_forall. intros p I.
      assert (I' : In p (a ++ PStart CWrite :: b)) by (apply in_app_or in I as [I|I]; apply in_or_app; [left; exact I|right; right; exact I]).
      destruct p as [c| |[|]|]; try reflexivity; exfalso.
      * assert (E : existsb reader (a ++ PStart CWrite :: b) = true) by (apply existsb_exists; eexists; split; [exact I'|reflexivity]). congruence.
      * assert (E : existsb reader (a ++ PStart CWrite :: b) = true) by (apply existsb_exists; eexists; split; [exact I'|reflexivity]). congruence.
      * assert (E : existsb writer (a ++ PStart CWrite :: b) = true) by (apply existsb_exists; eexists; split; [exact I'|reflexivity]). congruence.
    + intros _ I. unfold canLock in R. apply andb_true_iff in R as [R1 _]. apply negb_true_iff in R1.
      assert (E : existsb writer (a ++ PStart CWrite :: b) = true) by (apply existsb_exists; exists (PStoring CWrite); split; [apply in_app_or in I as [I|I]; apply in_or_app; [left; exact I|right; right; exact I]|reflexivity]). congruence.
  - apply (lockOk_replace a (PStoring c) PDone b O); discriminate.
Qed.
Theorem C93_nofetch_partial : forall t u, fresh_ t -> treach false t u -> ~ race u.
Proof.
  intros t u F R. assert (O : lockOk u).
  { induction R as [t|t u v R IH S].
    - split; [intros I; apply (proj1 (Forall_forall _ _) F) in I as [c Q]; discriminate|]. intros a b ->. assert (I : In (PStoring CWrite) (a ++ PStoring CWrite :: b)) by (apply in_or_app; right; left; reflexivity). apply (proj1 (Forall_forall _ _) F) in I as [c Q]. discriminate.
    - eapply tstep_ok; eauto. }
  destruct O as [N0 W]. intros (i & j & a & b & NE & A & B & S & M). destruct a as [c| |c|]; try discriminate. destruct c; [apply N0, (nth_error_In _ _ A)|].
  apply nth_error_split in A as (l1 & l2 & -> & L). specialize (W l1 l2 eq_refl). rewrite Forall_forall in W. assert (I : In b (l1 ++ l2)); [|rewrite (W b I) in M; discriminate].
  destruct (Nat.lt_ge_cases j (length l1)) as [J|J].
  - rewrite nth_error_app1 in B by exact J. apply in_or_app. left. apply (nth_error_In _ _ B).
  - rewrite nth_error_app2 in B by exact J. destruct (j - length l1)%nat eqn:D; [lia|]. cbn [nth_error] in B. apply in_or_app. right. apply (nth_error_In _ _ B).
Qed.
Example C93_nofetch_ex : fresh_ [PStart CLookup; PStart CWrite] /\ treach false [PStart CLookup; PStart CWrite] [PDone; PStoring CWrite].
Proof.
  split; [repeat constructor; eauto|]. eapply RStep; [|exact (SLock false [PDone] [] eq_refl)]. eapply RStep; [|exact (SHit false [] [PStart CWrite])]. eapply RStep; [|exact (SRLock false [] [PStart CWrite] eq_refl)]. apply RRefl.
Qed.

(* ---------------- C94, C95: tokens ---------------- *)
Definition smallT (t : token) : Prop := Forall (fun b => lenN b < 2 ^ 31) [kID t; kNonce t; kOwner t; kRX t; kRY t; kS t; kR t].
Theorem C94_codec : forall t d r, tokenMarshal t = Some d -> lenN d < 2 ^ 31 -> smallT t -> tokenUnmarshal (d ++ r) = Ok t.
Proof.
  intros t d r E L S. unfold smallT in S. assert (G : forall b, In b [kID t; kNonce t; kOwner t; kRX t; kRY t; kS t; kR t] -> lenN b < 2 ^ 31) by (apply Forall_forall; exact S).
  unfold tokenUnmarshal. rewrite (derUnmarshal_marshal _ [DOct (kID t); DBool (kFlag t); DOct (kNonce t); DOct (kOwner t); DOct (kRX t); DOct (kRY t); DOct (kS t); DOct (kR t)] d r); [|repeat (constructor; [cbn [dvOk]; try exact Logic.I; apply G; cbn [In]; tauto|]); constructor|exact E|exact L]. cbn [rbind]. destruct t; reflexivity.
Qed.
Theorem C94_marshals : forall t, exists d, tokenMarshal t = Some d.
Proof. intros t. eexists. reflexivity. Qed.
Theorem C94_signature : forall t x y r s, getSignature (addSignature x y r s t) = (x, y, r, s).
Proof. intros. unfold getSignature, addSignature. cbn [kRX kRY kS kR]. rewrite !bigBytes_dec. reflexivity. Qed.
(* a new token names its key and owner, also after a signature was added *)
Theorem C94_new : forall id owner rnd t x y r s, lenN id = 32 -> (forall o, owner = Some o -> lenN o = 32) -> newToken id owner rnd = Some t ->
  tokenProps (addSignature x y r s t) = (id, owner) /\ lenN (kNonce t) = 16 /\ lenN (kOwner t) = 32 /\ forall C, tokenHash C (addSignature x y r s t) = tokenHash C t.
Proof.
  intros id owner rnd t x y r s LI LO E. unfold newToken in E. destruct owner as [o|].
  - destruct (lenN rnd <? 16) eqn:L; [discriminate|]. apply N.ltb_ge in L. injection E as <-. specialize (LO o eq_refl). unfold tokenProps, addSignature. cbn [kID kFlag kOwner kNonce]. rewrite !(arrN_id 32 id LI), !(arrN_id 32 o LO). split; [reflexivity|]. split; [rewrite lenN_takeN; lia|]. split; [exact LO|]. reflexivity.
  - destruct (lenN rnd <? 48) eqn:L; [discriminate|]. apply N.ltb_ge in L. injection E as <-. unfold tokenProps, addSignature. cbn [kID kFlag kOwner kNonce]. rewrite !(arrN_id 32 id LI). split; [reflexivity|]. split; [rewrite lenN_takeN, lenN_dropN; lia|]. split; [rewrite lenN_takeN; lia|]. reflexivity.
Qed.
Definition exTok : token := match newToken (repeat 5 32) (Some (repeat 6 32)) (repeat 9 16) with Some t => addSignature 1 2 3 4 t | None => mkTok [] false [] [] [] [] [] [] end.
Example C94_ex : match tokenMarshal exTok with Some d => tokenUnmarshal d = Ok exTok | None => False end /\ tokenProps exTok = (repeat 5 32, Some (repeat 6 32)).
Proof. split; vm_compute; reflexivity. Qed.
(* two tokens as they may arrive, with different key, nonce and owner, have the same hash *)
Theorem C95_refuted : exists t t', is_ok (match tokenMarshal t with Some d => tokenUnmarshal d | None => Panic end) = true /\ is_ok (match tokenMarshal t' with Some d => tokenUnmarshal d | None => Panic end) = true /\
  tokenProps t <> tokenProps t' /\ forall C, tokenHash C t = tokenHash C t'.
Proof.
  exists (mkTok [1; 2] true [3; 1; 4] [5; 6] [] [] [] []), (mkTok [1; 2; 1; 3] true [4; 5] [6] [] [] [] []). split; [vm_compute; reflexivity|]. split; [vm_compute; reflexivity|]. split; [|reflexivity]. vm_compute. discriminate.
Qed.
(* Tokens of the proper sizes with the same hash are the same token, short of a collision.  Missing: the sizes are not checked. *)
Theorem C95_sizes_partial : forall C t t', lenN (kID t) = 32 -> lenN (kID t') = 32 -> lenN (kNonce t) = 16 -> lenN (kNonce t') = 16 ->
  (sha256 C (tokenImage t) = sha256 C (tokenImage t') -> tokenImage t = tokenImage t') -> tokenHash C t = tokenHash C t' -> kID t = kID t' /\ kFlag t = kFlag t' /\ kNonce t = kNonce t' /\ kOwner t = kOwner t'.
Proof.
  intros C t t' I I' L L' CF E. apply CF in E. unfold tokenImage in E. apply app_inj_len in E as [E1 E]; [|apply lenN_length; congruence]. apply app_inj_len in E as [E2 E]; [|reflexivity]. apply app_inj_len in E as [E3 E]; [|apply lenN_length; congruence].
  split; [exact E1|]. split; [destruct (kFlag t), (kFlag t'); try reflexivity; discriminate|auto].
Qed.
Example C95_sizes_ex : lenN (kID exTok) = 32 /\ lenN (kNonce exTok) = 16.
Proof. split; vm_compute; reflexivity. Qed.

(* ---------------- C96: packets ---------------- *)
Lemma callBytes_inj a b : (- 2 ^ 31 <= a < 2 ^ 31)%Z -> (- 2 ^ 31 <= b < 2 ^ 31)%Z -> forall s t, callBytes a ++ s = callBytes b ++ t -> a = b /\ s = t.
Proof.
  intros A B s t E. unfold callBytes in E. apply app_inj_len in E as [E1 E2]; [|apply lenN_length; rewrite !lenN_app, !lenN_be; reflexivity]. split; [|exact E2]. apply app_inj_len in E1 as [E1 _]; [|apply lenN_length; rewrite !lenN_be; reflexivity].
  apply (f_equal be_dec) in E1. rewrite !be_dec_be in E1. change (256 ^ N.of_nat 4) with (2 ^ 32) in E1. unfold u32z in E1.
  rewrite !N.mod_small in E1; [|change (2 ^ 32) with (Z.to_N (2 ^ 32)); apply Z2N.inj_lt; try apply Z.mod_pos_bound; try reflexivity; discriminate|change (2 ^ 32) with (Z.to_N (2 ^ 32)); apply Z2N.inj_lt; try apply Z.mod_pos_bound; try reflexivity; discriminate].
  apply Z2N.inj in E1; [|apply Z.mod_pos_bound; reflexivity|apply Z.mod_pos_bound; reflexivity]. change (2 ^ 32)%Z with 4294967296%Z in E1. change (2 ^ 31)%Z with 2147483648%Z in A, B.
  pose proof (Z.div_mod a 4294967296 ltac:(lia)). pose proof (Z.div_mod b 4294967296 ltac:(lia)). lia.
Qed.
Definition noCollision (C : Crypto) (a b : bytes) : Prop := sha256 C a = sha256 C b -> a = b.
(* the signed image determines the request; spend requests and reissue requests never share an image *)
Theorem C96_covers : forall C p q, (- 2 ^ 31 <= rCall p < 2 ^ 31)%Z -> (- 2 ^ 31 <= rCall q < 2 ^ 31)%Z ->
  noCollision C (callBytes (rCall p) ++ rToken p) (callBytes (rCall q) ++ rToken q) -> noCollision C (rBlind p) (rBlind q) -> noCollision C (rParams p) (rParams q) -> reissueImage C p = reissueImage C q -> p = q.
Proof.
  intros C [c t b r] [c' t' b' r'] R R' N1 N2 N3 E. unfold reissueImage in E. cbn [rCall rToken rBlind rParams] in *. apply app_inj_len in E as [E1 E]; [|apply lenN_length; rewrite !sha256_len; reflexivity]. apply app_inj_len in E as [E2 E3]; [|apply lenN_length; rewrite !sha256_len; reflexivity].
  apply N1, callBytes_inj in E1 as [-> ->]; [|assumption|assumption]. apply N2 in E2 as ->. apply N3 in E3 as ->. reflexivity.
Qed.
Theorem C96_separate : forall C p call tok, reissueImage C p <> spendImage C call tok.
Proof. intros C p call tok E. apply (f_equal lenN) in E. unfold reissueImage, spendImage in E. rewrite !lenN_app, !sha256_len in E. lia. Qed.
(* the owner's signature is accepted; an unsigned packet only without an owner *)
Theorem C96_verify : forall C image, (forall priv, packetVerify C image (packetSign C image (Some priv)) (Some (edpub C priv)) = Ok tt) /\ packetVerify C image (packetSign C image None) None = Ok tt /\
  (forall pub, is_ok (packetVerify C image (packetSign C image None) (Some pub)) = false) /\ (forall priv, is_ok (packetVerify C image (packetSign C image (Some priv)) None) = false).
Proof.
  intros C image. unfold packetVerify, packetSign. split; [intros priv; rewrite edsign_len, edverify_sign; reflexivity|]. split; [reflexivity|]. split; [reflexivity|]. intros priv. rewrite edsign_len. reflexivity.
Qed.
Theorem C96_codec : forall p sig d r, reissueMarshal p sig = Some d -> lenN d < 2 ^ 31 -> (- 2 ^ 31 <= rCall p < 2 ^ 31)%Z -> lenN (rToken p) < 2 ^ 31 -> lenN (rBlind p) < 2 ^ 31 -> lenN (rParams p) < 2 ^ 31 -> lenN sig < 2 ^ 31 -> reissueUnmarshal (d ++ r) = Ok (p, sig).
Proof.
  intros p sig d r E L R L1 L2 L3 L4. unfold reissueUnmarshal. rewrite (derUnmarshal_marshal _ [DInt (rCall p); DOct (rToken p); DOct (rBlind p); DOct (rParams p); DOct sig] d r); [|constructor; [cbn [dvOk]; change (2 ^ 31)%Z with 2147483648%Z in R; lia|]; repeat (constructor; [cbn [dvOk]; assumption|]); constructor|exact E|exact L]. cbn [rbind]. destruct p; reflexivity.
Qed.
Example C96_ex : match reissueMarshal (mkRe 0 (str "t") (str "b") (str "p")) [0] with Some d => reissueUnmarshal d = Ok (mkRe 0 (str "t") (str "b") (str "p"), [0]) | None => False end /\
  reissueImage toy (mkRe 0 (str "t") (str "b") (str "p")) <> reissueImage toy (mkRe 1 (str "t") (str "b") (str "p")).
Proof. split; vm_compute; [reflexivity|discriminate]. Qed.

Print Assumptions C61_pool.
Print Assumptions C61_lookup.
Print Assumptions C62_refuted.
Print Assumptions C62_late_partial.
Print Assumptions C63_refuted.
Print Assumptions C63_width_partial.
Print Assumptions C90_refuted.
Print Assumptions C90_width_partial.
Print Assumptions C91_codec.
Print Assumptions C91_marshals.
Print Assumptions C91_fetch.
Print Assumptions C92_refuted.
Print Assumptions C92_works_partial.
Print Assumptions C93_refuted.
Print Assumptions C93_nofetch_partial.
Print Assumptions C94_codec.
Print Assumptions C94_marshals.
Print Assumptions C94_signature.
Print Assumptions C94_new.
Print Assumptions C95_refuted.
Print Assumptions C95_sizes_partial.
Print Assumptions C96_covers.
Print Assumptions C96_separate.
Print Assumptions C96_verify.
Print Assumptions C96_codec.
