(* What mutectrl does before a command: which configuration is used and how old it is, network accesses with --offline, failed
   fetches, updates, wallet keys, delays. *)
From Verif Require Import Base Base64Model Base64Proofs CryptoModel Maps KeyfileModel MixClientModel PipeModel PipeProofs ConfigModel PropsConfig PrepareModel.
From Coq Require Import ZifyBool ZifyN ZifyNat.
Delimit Scope string_scope with string.
Local Open Scope N_scope.

(* ---------------- one fetch ---------------- *)
(* [c] was served by a configuration server in [e] and accepted there *)
Definition served (C : Crypto) (P : program) (e : env) (m : list ConfigModel.entry) (date : N) : Prop :=
  exists u sm, oConfig (vWorld e) u = Some sm /\ sConfig sm = m /\ sDate sm = date /\
    diff (u64 (vNow e)) date <= 14400 /\ verifyMap C date (gPub P) (sSig sm) (sortMap m) = true.
Lemma update_served C L o now c c' : update C L o now c = (Ok tt, c') -> exists u sm, oConfig o u = Some sm /\ fMap c' = sConfig sm /\ fLast c' = sDate sm /\
  certify C now (startDate now c) (fPub c) (Some sm) = Ok sm.
Proof.
  intros E. unfold update in E. destruct (order _ _) as [|s0 ss] eqn:SS; [discriminate E|]. rewrite <- SS in E. clear SS s0 ss. set (servers := order _ _) in E.
  set (c0 := if fLast c =? 0 then setLast c (u64 (now - skew)) else c) in E.
  assert (C0 : fPub c0 = fPub c /\ fLast c0 = startDate now c) by (unfold c0, startDate; destruct (fLast c =? 0); repeat split). destruct C0 as (P0 & L0).
  destruct (tryFrom _ (skipn (fCur c0) servers) (fCur c0)) as [cur res] eqn:T. destruct res as [[cert|e|]|]; [|discriminate E..].
  apply tryFrom_ok in T as (s & _ & CE). unfold getConfig in CE. rewrite P0, L0 in CE.
  destruct (oConfig o s) as [sm|] eqn:OC; [|discriminate CE]. destruct (certify_ok _ _ _ _ _ _ CE) as (-> & _).
  assert (ACC : forall d, accept d sm = c' -> exists u sm, oConfig o u = Some sm /\ fMap c' = sConfig sm /\ fLast c' = sDate sm /\ certify C now (startDate now c) (fPub c) (Some sm) = Ok sm) by (intros d <-; exists s, sm; auto).
  destruct (lookup _ _) as [hh|]; [|injection E as E; exact (ACC _ E)]. destruct (hexdec hh) as [hb|]; [|discriminate E].
  destruct (match fCA _ with Some ca => caHash C L ca | None => Ok [] end) as [my|e|]; [|discriminate E|discriminate E].
  destruct (beq my hb); [injection E as E; exact (ACC _ E)|]. destruct (tryFrom _ _ 0%nat) as [n [[ca|e|]|]]; [|discriminate E|discriminate E|]; injection E as E; exact (ACC _ E).
Qed.
Lemma initMute_np c g : fst (initMute c g) <> Panic.
Proof.
  destruct g as [rpc mix acc snd wal loo gua tru cle ca ma own usg]. unfold initMute, decodeKey.
  repeat (lazymatch goal with |- context [match setting c ?k with _ => _ end] => destruct (setting c k) | |- context [match hexdec ?k with _ => _ end] => destruct (hexdec k) | |- context [match parseUint ?k with _ => _ end] => destruct (parseUint k) end; cbn [negb fst orEmpty]; try discriminate).
Qed.
(* what a fetch does to the stored configuration and to the one in use *)
Lemma fetch_step C L P e k r k' : fetchconf C L P e k = (r, k') ->
  tOpen k' = tOpen k /\ tPass k' = tPass k /\
  ((tStore k' = tStore k /\ r <> Ok tt /\ (fMap (tCfg k') = fMap (tCfg k) \/ vAdds e = 0%nat)) \/
   (exists t, tStore k' = mkStore (Some (marshal (tCfg k'))) t (kWallet (tStore k)) /\ (t = formatInt (vNow e) \/ vAdds e = 1%nat /\ t = kTime (tStore k) /\ r <> Ok tt)) /\
    served C P e (fMap (tCfg k')) (fLast (tCfg k')) /\ fLast (tCfg k) <= fLast (tCfg k') /\
    (r = Ok tt -> initMute (tCfg k') (tSet k) = (Ok tt, tSet k') /\ tFile k' = Some (marshal (tCfg k')))).
Proof.
  unfold fetchconf. set (c0 := mkCfg _ _ _ _ _ _). destruct (update C L (vWorld e) (vNow e) c0) as [r0 c] eqn:U. destruct r0 as [[]|x|].
  2: intros E; injection E as <- <-; split; [reflexivity|]; split; [reflexivity|]; left; split; [reflexivity|]; split; [discriminate|]; left; apply update_step in U as (_ & _ & U); destruct U as [U _]; exact U.
  2: intros E; injection E as <- <-; split; [reflexivity|]; split; [reflexivity|]; left; split; [reflexivity|]; split; [discriminate|]; left; apply update_step in U as (_ & _ & U); destruct U as [U _]; exact U.
  apply update_served in U as (u & sm & OC & M & D & CE). apply certify_ok in CE as (_ & LB & NEAR & V).
  assert (SV : served C P e (fMap c) (fLast c)). { exists u, sm. rewrite M, D. split; [exact OC|]. split; [reflexivity|]. split; [reflexivity|]. split; [exact NEAR|exact V]. }
  assert (GE : fLast (tCfg k) <= fLast c). { rewrite D. unfold startDate in LB. cbn [fLast c0] in LB. destruct (N.eqb_spec (fLast (tCfg k)) 0); lia. }
  destruct (vAdds e) as [|[|n]].
  - intros E; injection E as <- <-. split; [reflexivity|]. split; [reflexivity|]. left. split; [reflexivity|]. split; [discriminate|]. right; reflexivity.
  - intros E; injection E as <- <-. split; [reflexivity|]. split; [reflexivity|]. right. cbn [setStore setCfg tStore tCfg]. split; [|split; [exact SV|]; split; [exact GE|intros Q; discriminate Q]].
    eexists. split; [reflexivity|]. right. split; [reflexivity|]. split; [reflexivity|discriminate].
  - cbn [setStore setCfg tStore tCfg tSet]. destruct (initMute c (tSet k)) as [r1 g] eqn:IM. pose proof (initMute_np c (tSet k)) as NP. rewrite IM in NP.
    destruct r1 as [[]|x|]; [|intros E; injection E as <- <-|contradiction NP; reflexivity].
    + destruct (vWrite e); intros E; injection E as <- <-; (split; [reflexivity|]); (split; [reflexivity|]); right; cbn [setStore setSet setFile setCfg tStore tCfg tSet tFile]; (split; [eexists; split; [reflexivity|left; reflexivity]|]); (split; [exact SV|]); (split; [exact GE|]); [intros _; split; [exact IM|reflexivity]|intros Q; discriminate Q].
    + split; [reflexivity|]. split; [reflexivity|]. right. cbn [setStore setSet setCfg tStore tCfg tSet tFile]. split; [eexists; split; [reflexivity|left; reflexivity]|]. split; [exact SV|]. split; [exact GE|]. intros Q; discriminate Q.
Qed.
Definition ageLimit (offline : bool) : Z := if offline then 604800%Z else 86400%Z.
(* the configuration in the store is loaded, and used or replaced by a fetch *)
Inductive loaded (k k1 : ctrl) : Prop :=
| LNone : kConf (tStore k) = None -> tCfg k1 = tCfg k -> loaded k k1
| LSome s : kConf (tStore k) = Some s -> tCfg k1 = unmarshal s (tCfg k) -> loaded k k1.
Lemma getConf_step C L P off e k r k' n : getConf C L P off e k = (r, k', n) ->
  tOpen k' = tOpen k /\ tPass k' = tPass k /\
  exists k1, loaded k k1 /\ tStore k1 = tStore k /\ tFile k1 = tFile k /\ tOpen k1 = tOpen k /\ tPass k1 = tPass k /\
  ((off = false /\ n = [NConfig] /\ fetchconf C L P e k1 = (r, k')) \/
   (k' = k1 /\ n = [] /\ (r = Ok tt -> initMute (tCfg k1) (tSet k) = (Ok tt, tSet k') /\ exists s, kConf (tStore k) = Some s /\
     forall z, kTime (tStore k) <> [] -> parseInt (kTime (tStore k)) = Some z -> (vNow e - z <= ageLimit off)%Z))).
Proof.
  unfold getConf. destruct (kConf (tStore k)) as [s|] eqn:KC.
  - destruct (initMute (unmarshal s (tCfg k)) (tSet k)) as [r0 g] eqn:IM. set (k1 := setSet (setCfg k (unmarshal s (tCfg k))) g).
    assert (LD : loaded k k1) by (apply (LSome k k1 s); [exact KC|reflexivity]).
    assert (FET : forall r k' n, off = false -> (fetchconf C L P e k1, [NConfig]) = (r, k', n) -> tOpen k' = tOpen k /\ tPass k' = tPass k /\
      exists k1, loaded k k1 /\ tStore k1 = tStore k /\ tFile k1 = tFile k /\ tOpen k1 = tOpen k /\ tPass k1 = tPass k /\ ((off = false /\ n = [NConfig] /\ fetchconf C L P e k1 = (r, k')) \/
      (k' = k1 /\ n = [] /\ (r = Ok tt -> initMute (tCfg k1) (tSet k) = (Ok tt, tSet k') /\ exists s0, Some s = Some s0 /\ forall z, kTime (tStore k) <> [] -> parseInt (kTime (tStore k)) = Some z -> (vNow e - z <= ageLimit off)%Z)))).
    { clear r k' n. intros r k' n O E. destruct (fetchconf C L P e k1) as [rf kf] eqn:F. injection E as <- <- <-. destruct (fetch_step _ _ _ _ _ _ _ F) as (A & B & _). split; [exact A|]. split; [exact B|].
      exists k1. split; [exact LD|]. repeat (split; [reflexivity|]). left. auto. }
    assert (KEEP : forall r k' n, (r, k1, @nil net) = (r, k', n) -> (r = Ok tt -> r0 = Ok tt /\ forall z, kTime (tStore k) <> [] -> parseInt (kTime (tStore k)) = Some z -> (vNow e - z <= ageLimit off)%Z) -> tOpen k' = tOpen k /\ tPass k' = tPass k /\
      exists k1, loaded k k1 /\ tStore k1 = tStore k /\ tFile k1 = tFile k /\ tOpen k1 = tOpen k /\ tPass k1 = tPass k /\ ((off = false /\ n = [NConfig] /\ fetchconf C L P e k1 = (r, k')) \/
      (k' = k1 /\ n = [] /\ (r = Ok tt -> initMute (tCfg k1) (tSet k) = (Ok tt, tSet k') /\ exists s0, Some s = Some s0 /\ forall z, kTime (tStore k) <> [] -> parseInt (kTime (tStore k)) = Some z -> (vNow e - z <= ageLimit off)%Z)))).
    { clear r k' n. intros r k' n E H. injection E as <- <-. split; [reflexivity|]. split; [reflexivity|]. exists k1. split; [exact LD|]. repeat (split; [reflexivity|]). right. split; [reflexivity|]. split; [reflexivity|].
      intros R. destruct (H R) as [R0 A]. split; [cbn [k1 setSet setCfg tCfg tSet]; rewrite IM, R0; reflexivity|]. exists s. split; [reflexivity|exact A]. }
    destruct r0 as [[]|x|].
    + cbn [k1 setSet setCfg tStore]. fold k1. destruct (kTime (tStore k)) as [|c0 t0] eqn:KT; [intros E; destruct r as [[]|x|]; [|discriminate E|discriminate E]; apply (KEEP _ _ _ E); intros _; split; [reflexivity|intros z Q _; contradiction Q; reflexivity]|].
      rewrite <- KT in *. destruct (parseInt (kTime (tStore k))) as [z|] eqn:PI; [|intros E; destruct r as [[]|x|]; [discriminate E| |discriminate E]; injection E as <- <- <-; refine (KEEP _ _ _ eq_refl _); intros Q; discriminate Q].
      unfold minAge, maxAgeOffline. destruct (86400 <? vNow e - z)%Z eqn:A1.
      * destruct off; [|intros E; apply FET; [reflexivity|exact E]]. destruct (604800 <? vNow e - z)%Z eqn:A2; intros E; (destruct r as [[]|x|]; [|try discriminate E|discriminate E]); try discriminate E; injection E as <- <-; [subst; refine (KEEP _ _ _ eq_refl _); intros Q; discriminate Q|].
        refine (KEEP _ _ _ eq_refl _). intros _. split; [reflexivity|]. intros z0 _ Q. assert (z0 = z) as -> by congruence. cbn [ageLimit]. clear -A2. lia.
      * intros E; (destruct r as [[]|x|]; [|discriminate E|discriminate E]); injection E as <- <-. refine (KEEP _ _ _ eq_refl _). intros _. split; [reflexivity|]. intros z0 _ Q. assert (z0 = z) as -> by congruence. clear -A1. unfold ageLimit. destruct off; lia.
    + destruct off; [|intros E; apply FET; [reflexivity|exact E]]. intros E. destruct r as [[]|y|]; [discriminate E| |discriminate E]. injection E as <- <- <-. refine (KEEP _ _ _ eq_refl _). intros Q; discriminate Q.
    + pose proof (initMute_np (unmarshal s (tCfg k)) (tSet k)) as NP. rewrite IM in NP. contradiction NP; reflexivity.
  - assert (LD : loaded k k) by (apply LNone; [exact KC|reflexivity]). destruct off.
    + intros E. injection E as <- <- <-. split; [reflexivity|]. split; [reflexivity|]. exists k. split; [exact LD|]. repeat (split; [reflexivity|]). right. split; [reflexivity|]. split; [reflexivity|]. intros Q; discriminate Q.
    + destruct (fetchconf C L P e k) as [rf kf] eqn:F. intros E. injection E as <- <- <-. destruct (fetch_step _ _ _ _ _ _ _ F) as (A & B & _). split; [exact A|]. split; [exact B|]. exists k. split; [exact LD|]. repeat (split; [reflexivity|]). left. auto.
Qed.
(* prepare: opening the database does not change the values in it *)
Lemma prepare_step C L P opens check off e k r k' n : prepare C L P opens true check off e k = (r, k', n) ->
  (r <> Ok tt /\ n = [] /\ tStore k' = tStore k /\ tCfg k' = tCfg k /\ tSet k' = tSet k /\ tFile k' = tFile k /\ tOpen k = false) \/
  (exists k1 r0 n0 n1, tStore k1 = tStore k /\ tCfg k1 = tCfg k /\ tSet k1 = tSet k /\ tFile k1 = tFile k /\ tOpen k1 = true /\ (tOpen k = true -> k1 = k) /\
    (tOpen k = false -> exists p, tPass k1 = p /\ opens (match p with Some p => p | None => [] end) = true /\ (tPass k <> None -> p = tPass k)) /\
    getConf C L P off e k1 = (r0, k', n0) /\ n = n0 ++ n1 /\ (n1 = [] \/ off = false /\ n1 = [NKeys]) /\ (r0 <> Ok tt -> r = r0) /\ (r = Ok tt -> r0 = Ok tt /\ (check = true -> is_ok (checkUpdates P (tCfg k')) = true))).
Proof.
  unfold prepare. cbn [negb].
  assert (REST : forall k1, forall r k' n, match getConf C L P off e k1 with
    | (Err x, k, n) => (Err x, k, n) | (Panic, k, n) => (Panic, k, n)
    | (Ok _, k, n) => match (if check then match checkUpdates P (tCfg k) with Ok _ => Ok tt | Err x => Err x | Panic => Panic end else Ok tt) with
      | Err x => (Err x, k, n) | Panic => (Panic, k, n) | Ok _ => let (r, n2) := startWallet off e k in (r, k, n ++ n2) end end = (r, k', n) ->
    exists r0 n0 n1, getConf C L P off e k1 = (r0, k', n0) /\ n = n0 ++ n1 /\ (n1 = [] \/ off = false /\ n1 = [NKeys]) /\ (r0 <> Ok tt -> r = r0) /\ (r = Ok tt -> r0 = Ok tt /\ (check = true -> is_ok (checkUpdates P (tCfg k')) = true))).
  { clear r k' n. intros k1 r k' n. destruct (getConf C L P off e k1) as [[r0 kg] ng]. destruct r0 as [[]|x|]; [|intros E; injection E as <- <- <-; exists (Err x), ng, []; rewrite app_nil_r; split; [reflexivity|]; split; [reflexivity|]; split; [left; reflexivity|]; split; [reflexivity|intros Q; discriminate Q]|intros E; injection E as <- <- <-; exists Panic, ng, []; rewrite app_nil_r; split; [reflexivity|]; split; [reflexivity|]; split; [left; reflexivity|]; split; [reflexivity|intros Q; discriminate Q]].
    destruct (if check then _ else Ok tt) as [[]|x|] eqn:CK.
    - destruct (startWallet off e kg) as [rw nw] eqn:SW. intros E. injection E as <- <- <-. exists (Ok tt), ng, nw. split; [reflexivity|]. split; [reflexivity|]. split.
      + unfold startWallet in SW. destruct (decodeWalletKey _); [|injection SW as _ <-; left; reflexivity|injection SW as _ <-; left; reflexivity]. destruct off; injection SW as _ <-; [left; reflexivity|right; auto].
      + split; [intros Q; contradiction Q; reflexivity|]. intros _. split; [reflexivity|]. intros ->. destruct (checkUpdates P (tCfg kg)); [reflexivity|discriminate CK|discriminate CK].
    - intros E. injection E as <- <- <-. exists (Ok tt), ng, []. rewrite app_nil_r. split; [reflexivity|]. split; [reflexivity|]. split; [left; reflexivity|]. split; [intros Q; contradiction Q; reflexivity|]. intros Q; discriminate Q.
    - intros E. injection E as <- <- <-. exists (Ok tt), ng, []. rewrite app_nil_r. split; [reflexivity|]. split; [reflexivity|]. split; [left; reflexivity|]. split; [intros Q; contradiction Q; reflexivity|]. intros Q; discriminate Q. }
  destruct (tOpen k) eqn:TO.
  - intros E. right. destruct (REST k _ _ _ E) as (r0 & n0 & n1 & G). exists k, r0, n0, n1. repeat (split; [reflexivity|]). split; [exact TO|]. split; [reflexivity|]. split; [intros Q; discriminate Q|exact G].
  - unfold openMsgDB. destruct (match tPass k with Some p => Ok (Some p) | None => vRead e end) as [p|x|] eqn:RD.
    + destruct (opens _) eqn:OP.
      * intros E. right. destruct (REST _ _ _ _ E) as (r0 & n0 & n1 & G). eexists. exists r0, n0, n1. split; [|split; [|split; [|split; [|split; [|split; [|split; [|exact G]]]]]]]; try reflexivity; [intros Q; discriminate Q|].
        intros _. exists p. split; [reflexivity|]. split; [exact OP|]. destruct (tPass k); [congruence|intros Q; contradiction Q; reflexivity].
      * intros E. left. injection E as <- <- <-. split; [discriminate|]. repeat (split; [reflexivity|]). reflexivity.
    + intros E. left. injection E as <- <- <-. split; [discriminate|]. repeat (split; [reflexivity|]). reflexivity.
    + intros E. left. injection E as <- <- <-. split; [discriminate|]. repeat (split; [reflexivity|]). reflexivity.
Qed.

(* ---------------- C136: which configuration is used, and how old it is ---------------- *)
Definition stepEnvs (st : step) : list env := match st with SCommand _ e | SFetch _ e | SUpdate _ e => [e] | SRestart _ => [] end.
Definition goodEnv (e : env) : Prop := (2 <= vAdds e)%nat /\ (0 <= vNow e < 2 ^ 63)%Z.
Definition same (m1 m2 : list ConfigModel.entry) : Prop := forall x, lookup x m1 = lookup x m2.
Definition Inv (C : Crypto) (P : program) (h : list env) (k : ctrl) : Prop :=
  match kConf (tStore k) with
  | None => fMap (tCfg k) = []
  | Some s => (exists e, In e h /\ served C P e (fMap s) (fLast s) /\ kTime (tStore k) = formatInt (vNow e)) /\ (fMap (tCfg k) = [] \/ same (fMap (tCfg k)) (fMap s))
  end.
Lemma lookup_app x a b : lookup x (a ++ b) = match lookup x a with Some v => Some v | None => lookup x b end.
Proof. unfold lookup. induction a as [|e a IH]; [reflexivity|]. cbn [app find]. destruct (beq (fst e) x); [reflexivity|exact IH]. Qed.
Lemma lookup_filter x m : forall old, lookup x m = None -> lookup x (filter (fun e => negb (hasKey (fst e) m)) old) = lookup x old.
Proof.
  unfold lookup at 2 3. intros old H. induction old as [|e old IH]; [reflexivity|]. cbn [filter find]. destruct (beq (fst e) x) eqn:B.
  - apply beq_spec in B. unfold hasKey. rewrite B, H. cbn [negb find]. rewrite B, beq_refl. reflexivity.
  - destruct (negb (hasKey (fst e) m)); [cbn [find]; rewrite B|]; exact IH.
Qed.
Lemma lookup_unmarshal s old x : lookup x (fMap (unmarshal s old)) = match lookup x (fMap s) with Some v => Some v | None => lookup x (fMap old) end.
Proof. cbn [unmarshal fMap]. rewrite lookup_app. destruct (lookup x (fMap s)) eqn:L; [reflexivity|]. apply lookup_filter. exact L. Qed.
Lemma load_Inv C P h k k1 : Inv C P h k -> loaded k k1 -> tStore k1 = tStore k -> Inv C P h k1 /\ forall s, kConf (tStore k1) = Some s -> same (fMap (tCfg k1)) (fMap s).
Proof.
  unfold Inv. intros I LD ST. rewrite ST. destruct LD as [KN TC|s KS TC].
  - rewrite KN in *. rewrite TC. split; [exact I|intros s Q; discriminate Q].
  - rewrite KS in *. destruct I as [A B].
    assert (S : same (fMap (tCfg k1)) (fMap s)).
    { rewrite TC. intros x. rewrite lookup_unmarshal. destruct (lookup x (fMap s)) eqn:L; [reflexivity|]. destruct B as [-> | B]; [reflexivity|]. rewrite B. exact L. }
    split; [split; [exact A|right; exact S]|]. intros s0 Q. assert (s0 = s) as -> by congruence. exact S.
Qed.
Lemma Inv_more C P e h k : Inv C P h k -> Inv C P (e :: h) k.
Proof. unfold Inv. destruct (kConf (tStore k)) as [s|]; [|auto]. intros [(e0 & I & S & T) B]. split; [|exact B]. exists e0. split; [right; exact I|auto]. Qed.
Lemma fetch_Inv C L P e h k r k' : Inv C P h k -> (2 <= vAdds e)%nat -> fetchconf C L P e k = (r, k') -> Inv C P (e :: h) k'.
Proof.
  intros I G F. apply fetch_step in F as (_ & _ & [(ST & _ & [M|Z])|((t & ST & T) & S & _)]); [|lia|].
  - apply Inv_more. unfold Inv in *. rewrite ST, M. exact I.
  - destruct T as [-> |(Q & _)]; [|lia]. unfold Inv. rewrite ST. cbn [kConf kTime marshal setCur fMap fLast]. split; [|right; intros x; reflexivity]. exists e. split; [left; reflexivity|]. split; [exact S|reflexivity].
Qed.
Lemma getConf_Inv C L P off e h k r k' n : Inv C P h k -> (2 <= vAdds e)%nat -> getConf C L P off e k = (r, k', n) -> Inv C P (e :: h) k'.
Proof.
  intros I G E. apply getConf_step in E as (_ & _ & k1 & LD & ST & _ & _ & _ & [(_ & _ & F)|(-> & _)]).
  - refine (fetch_Inv _ _ _ _ _ _ _ _ _ G F). apply (load_Inv _ _ _ _ _ I LD ST).
  - apply Inv_more. apply (load_Inv _ _ _ _ _ I LD ST).
Qed.
Lemma prepare_Inv C L P opens check off e h k r k' n : Inv C P h k -> (2 <= vAdds e)%nat -> prepare C L P opens true check off e k = (r, k', n) -> Inv C P (e :: h) k'.
Proof.
  intros I G E. apply prepare_step in E as [(_ & _ & ST & TC & _)|(k1 & r0 & n0 & n1 & ST & TC & _ & _ & _ & _ & _ & E & _)].
  - apply Inv_more. unfold Inv in *. rewrite ST, TC. exact I.
  - refine (getConf_Inv _ _ _ _ _ _ _ _ _ _ _ G E). unfold Inv in *. rewrite ST, TC. exact I.
Qed.
Lemma Inv_twice C P e h k : Inv C P (e :: e :: h) k -> Inv C P (e :: h) k.
Proof. unfold Inv. destruct (kConf (tStore k)) as [s|]; [|auto]. intros [(e0 & I & S & T) B]. split; [|exact B]. exists e0. split; [|auto]. destruct I as [I|[I|I]]; [left; exact I|left; exact I|right; exact I]. Qed.
Lemma runStep_Inv C L P opens st h k : Inv C P h k -> Forall goodEnv (stepEnvs st) -> Inv C P (stepEnvs st ++ h) (snd (fst (runStep C L P opens st k))).
Proof.
  intros I G. destruct st as [off e|off e|off e|g]; cbn [stepEnvs app runStep] in *; try apply Forall_inv in G as [G _].
  - destruct (prepare _ _ _ _ _ _ _ _ _) as [[r k'] n] eqn:E. cbn [fst snd]. exact (prepare_Inv _ _ _ _ _ _ _ _ _ _ _ _ I G E).
  - destruct (prepare _ _ _ _ _ _ _ _ _) as [[r k'] n] eqn:E. pose proof (prepare_Inv _ _ _ _ _ _ _ _ _ _ _ _ I G E) as I'. destruct r as [[]|x|]; cbn [fst snd]; [|exact I'|exact I'].
    destruct (fetchconf C L P e k') as [r2 k2] eqn:F. cbn [fst snd]. apply Inv_twice. exact (fetch_Inv _ _ _ _ _ _ _ _ I' G F).
  - destruct (prepare _ _ _ _ _ _ _ _ _) as [[r k'] n] eqn:E. pose proof (prepare_Inv _ _ _ _ _ _ _ _ _ _ _ _ I G E) as I'. destruct r as [[]|x|]; cbn [fst snd]; [|exact I'|exact I'].
    unfold upkeepUpdate. destruct (fetchconf C L P e k') as [r2 k2] eqn:F. assert (I2 : Inv C P (e :: h) k2) by (apply Inv_twice; exact (fetch_Inv _ _ _ _ _ _ _ _ I' G F)). destruct r2; exact I2.
  - cbn [fst snd]. unfold Inv in *. cbn [restart tStore tCfg zeroCfg fMap]. destruct (kConf (tStore k)); [destruct I as [A _]; split; [exact A|left; reflexivity]|reflexivity].
Qed.
Lemma Inv_incl C P h h' k : incl h h' -> Inv C P h k -> Inv C P h' k.
Proof. unfold Inv. intros Q. destruct (kConf (tStore k)) as [s|]; [|auto]. intros [(e0 & I & S & T) B]. split; [|exact B]. exists e0. split; [apply Q; exact I|auto]. Qed.
Lemma runSteps_Inv C L P opens l : forall h k, Inv C P h k -> Forall goodEnv (flat_map stepEnvs l) -> Inv C P (flat_map stepEnvs l ++ h) (runSteps C L P opens l k).
Proof.
  induction l as [|st l IH]; intros h k I G; [exact I|]. cbn [flat_map runSteps] in *. apply Forall_app in G as [G1 G2]. pose proof (IH _ _ (runStep_Inv C L P opens st h k I G1) G2) as R.
  eapply Inv_incl; [|exact R]. intros x H. rewrite !in_app_iff in *. tauto.
Qed.
(* a home directory in which nothing was fetched yet *)
Definition fresh (k : ctrl) : Prop := kConf (tStore k) = None /\ kTime (tStore k) = [] /\ tCfg k = zeroCfg.
(* After any sequence of commands, failures and restarts: if a command is performed, its configuration is one that a server
   served in this or an earlier command, signed by the key in the program, accepted at most 24 hours ago (--offline: 7 days) by
   the clock, and the settings are those of this configuration.  Missing: failing writes into the database, see C136_refuted. *)
Theorem C136_fresh_partial : forall C L P opens l off e k k' n, fresh k -> Forall goodEnv (flat_map stepEnvs l) -> goodEnv e ->
  runStep C L P opens (SCommand off e) (runSteps C L P opens l k) = (Ok tt, k', n) ->
  exists e' m date, In e' (e :: flat_map stepEnvs l) /\ served C P e' m date /\ (vNow e - vNow e' <= if off then 7 * 86400 else 86400)%Z /\
    (forall x, lookup x (fMap (tCfg k')) = lookup x m) /\ exists g, complete (tCfg k') g (tSet k').
Proof.
  intros C L P opens l off e k k' n (FN & FT & FC) G GE E. cbn [runStep] in E.
  assert (I0 : Inv C P [] k) by (unfold Inv; rewrite FN, FC; reflexivity).
  pose proof (runSteps_Inv C L P opens l [] k I0 G) as I. rewrite app_nil_r in I. set (k0 := runSteps C L P opens l k) in *. set (h := flat_map stepEnvs l) in *.
  apply prepare_step in E as [(NE & _)|(k1 & r0 & n0 & n1 & ST & TC & TS & _ & _ & _ & _ & E & _ & _ & _ & OK)]; [contradiction NE; reflexivity|]. destruct (OK eq_refl) as [-> _]. clear OK.
  assert (I1 : Inv C P h k1) by (unfold Inv in *; rewrite ST, TC; exact I). clear I. apply getConf_step in E as (_ & _ & k2 & LD & ST2 & _ & _ & _ & [(-> & _ & F)|(-> & _ & OK)]).
  - apply fetch_step in F as (_ & _ & [(_ & Q & _)|(_ & S & _ & OK)]); [contradiction Q; reflexivity|]. destruct (OK eq_refl) as [IM _]. exists e. eexists. eexists. split; [left; reflexivity|]. split; [exact S|]. split; [lia|]. split; [reflexivity|]. exists (tSet k2). apply C72_success_partial. exact IM.
  - destruct (OK eq_refl) as (IM & s & KS & AGE). destruct (load_Inv _ _ _ _ _ I1 LD ST2) as [I2 SM]. rewrite <- ST2 in KS. specialize (SM _ KS). unfold Inv in I2. rewrite KS in I2. destruct I2 as [(e' & IN & S & KT) _].
    exists e', (fMap s), (fLast s). split; [right; exact IN|]. split; [exact S|]. split; [|split; [exact SM|exists (tSet k1); apply C72_success_partial; exact IM]].
    assert (GE' : goodEnv e') by (rewrite Forall_forall in G; apply G; exact IN). rewrite <- ST2 in AGE. specialize (AGE (vNow e')). rewrite KT, parseInt_formatInt in AGE by (destruct GE' as [_ Q]; lia).
    assert (Q : formatInt (vNow e') <> []). { intros Q. assert (PF : parseInt (formatInt (vNow e')) = Some (vNow e')) by (apply parseInt_formatInt; destruct GE' as [_ W]; lia). rewrite Q in PF. discriminate PF. }
    specialize (AGE Q eq_refl). unfold ageLimit in AGE. destruct off; lia.
Qed.
Definition exRel (m : list ConfigModel.entry) : list ConfigModel.entry := (str "release.Commit", str "c0ffee") :: m.
Definition exProg : program := mkProg (edpub toy exPriv) (str "cfg.mute.one") (str "c0ffee") (str "1000000") parseInt.
Definition exOpens (p : bytes) : bool := beq p (str "pass").
Definition exEnv (now : Z) (adds : nat) (m : list ConfigModel.entry) : env := mkEnv now (PropsConfig.serve now m) adds true true (Ok (Some (str "pass"))).
Definition exDown (now : Z) : env := mkEnv now down 2 true true (Ok (Some (str "pass"))).
Definition exNew : ctrl := mkCtrl false None zeroCfg exSet (mkStore None [] []) None.
Definition exHist : list step := [SCommand false (exEnv 1000000 2 (exRel exFull)); SRestart exSet; SCommand false (exEnv 1050000 2 (exRel exMap)); SFetch false (exEnv 1060000 2 (exRel exFull))].
Example C136_fresh_ex : fresh exNew /\ Forall goodEnv (flat_map stepEnvs exHist) /\ goodEnv (exDown 1140000) /\
  (exists k', runStep toy noLib exProg exOpens (SCommand false (exDown 1140000)) (runSteps toy noLib exProg exOpens exHist exNew) = (Ok tt, k', [NKeys])) /\
  (exists k', runStep toy noLib exProg exOpens (SCommand true (exDown 1660000)) (runSteps toy noLib exProg exOpens exHist exNew) = (Ok tt, k', [])).
Proof.
  split; [repeat split|]. assert (G : forall now m, (0 <= now < 2 ^ 63)%Z -> goodEnv (exEnv now 2 m)) by (intros now m H; split; [cbn; lia|exact H]).
  split; [cbn [flat_map stepEnvs exHist app]; repeat (constructor; [apply G; lia|]); constructor|]. split; [split; [cbn; lia|cbn; lia]|]. split; eexists; vm_compute; reflexivity.
Qed.
(* the time could not be stored when the first configuration was: from then on the configuration is never fetched again *)
Theorem C136_refuted : exists C L P opens l e k k' n, fresh k /\ (0 <= vNow e < 2 ^ 63)%Z /\ runStep C L P opens (SCommand false e) (runSteps C L P opens l k) = (Ok tt, k', n) /\
  ~ In NConfig n /\ Forall (fun e' => (0 <= vNow e' /\ vNow e - vNow e' > 365 * 86400)%Z) (flat_map stepEnvs l).
Proof.
  exists toy, noLib, exProg, exOpens, [SCommand false (exEnv 1000000 1 (exRel exFull)); SRestart exSet], (exEnv 50000000 2 (exRel exFull)), exNew. eexists. eexists.
  split; [repeat split|]. split; [cbn; lia|]. split; [vm_compute; reflexivity|]. split; [cbn; intros [Q|[]]; discriminate Q|]. constructor; [cbn; lia|constructor].
Qed.

(* ---------------- C137: the configuration in use and the stored one ---------------- *)
(* an entry that another process removed from the stored configuration stays in use *)
Theorem C137_merge : forall C L P off e k k' s x v, kConf (tStore k) = Some s -> lookup x (fMap s) = None -> lookup x (fMap (tCfg k)) = Some v ->
  getConf C L P off e k = (Ok tt, k', []) -> lookup x (fMap (tCfg k')) = Some v.
Proof.
  intros C L P off e k k' s x v KS LN LV E. apply getConf_step in E as (_ & _ & k1 & LD & _ & _ & _ & _ & [(_ & Q & _)|(-> & _)]); [discriminate Q|].
  destruct LD as [KN _|s0 KS0 TC]; [congruence|]. assert (s0 = s) as -> by congruence. rewrite TC, lookup_unmarshal, LN. exact LV.
Qed.
(* two processes: the first has an old configuration, the second fetches one without the entry, the first goes on with the entry *)
Theorem C137_refuted : exists C L P opens e1 e2 e3 k kA kB kA' s x v, fresh k /\
  runStep C L P opens (SCommand false e1) k = (Ok tt, kA, [NConfig; NKeys]) /\
  runStep C L P opens (SCommand false e2) (restart exSet kA) = (Ok tt, kB, [NConfig; NKeys]) /\
  runStep C L P opens (SCommand false e3) (setStore kA (tStore kB)) = (Ok tt, kA', [NKeys]) /\
  kConf (tStore kA') = Some s /\ lookup x (fMap s) = None /\ lookup x (fMap (tCfg kA')) = Some v /\ lookup x (gMap (tSet kA')) = Some v.
Proof.
  exists toy, noLib, exProg, exOpens, (exEnv 1000000 2 ((str "removed", str "x") :: exRel exFull)), (exEnv 1100000 2 (exRel exFull)), (exDown 1100001), exNew. do 4 eexists. exists (str "removed"), (str "x").
  split; [repeat split|]. split; [vm_compute; reflexivity|]. split; [vm_compute; reflexivity|]. split; [vm_compute; reflexivity|]. repeat split; vm_compute; reflexivity.
Qed.
(* a process that starts uses exactly the stored entries.  Missing: a process that goes on, see above. *)
Theorem C137_start_partial : forall C L P opens check off e k g k' n s, prepare C L P opens true check off e (restart g k) = (Ok tt, k', n) -> kConf (tStore k') = Some s ->
  forall x, lookup x (fMap (tCfg k')) = lookup x (fMap s).
Proof.
  intros C L P opens check off e k g k' n s E KS x. apply prepare_step in E as [(NE & _)|(k1 & r0 & n0 & n1 & ST & TC & TS & _ & _ & _ & _ & E & _ & _ & _ & OK)]; [contradiction NE; reflexivity|]. destruct (OK eq_refl) as [-> _].
  apply getConf_step in E as (_ & _ & k2 & LD & ST2 & _ & _ & _ & [(_ & _ & F)|(-> & _ & _)]).
  - apply fetch_step in F as (_ & _ & [(_ & Q & _)|((t & ST3 & _) & _)]); [contradiction Q; reflexivity|]. rewrite ST3 in KS. cbn [kConf] in KS. injection KS as <-. reflexivity.
  - rewrite ST2 in KS. destruct LD as [KN _|s0 KS0 TC2]; [congruence|]. assert (s0 = s) as -> by congruence. rewrite TC2, lookup_unmarshal, TC. destruct (lookup x (fMap s)); reflexivity.
Qed.
Example C137_start_ex : exists k' n s, prepare toy noLib exProg exOpens true true false (exDown 1000005) (restart exSet (runSteps toy noLib exProg exOpens [SCommand false (exEnv 1000000 2 (exRel exFull))] exNew)) = (Ok tt, k', n) /\ kConf (tStore k') = Some s /\ n = [NKeys].
Proof. do 3 eexists. split; [vm_compute; reflexivity|]. split; reflexivity. Qed.

(* ---------------- C138: the date of the stored configuration ---------------- *)
Definition older (k k' : ctrl) : Prop := forall s, kConf (tStore k) = Some s -> exists s', kConf (tStore k') = Some s' /\ fLast s <= fLast s'.
Definition synced (k : ctrl) : Prop := forall s, kConf (tStore k) = Some s -> fLast (tCfg k) = fLast s.
Lemma older_refl k k' : tStore k' = tStore k -> older k k'.
Proof. intros E s H. exists s. rewrite E. split; [exact H|lia]. Qed.
Lemma older_trans a b c : older a b -> older b c -> older a c.
Proof. intros A B s H. destruct (A _ H) as (s1 & H1 & L1). destruct (B _ H1) as (s2 & H2 & L2). exists s2. split; [exact H2|lia]. Qed.
Lemma fetch_older C L P e k r k' : synced k -> fetchconf C L P e k = (r, k') -> older k k' /\ (r = Ok tt -> synced k').
Proof.
  intros S F. apply fetch_step in F as (_ & _ & [(ST & Q & _)|((t & ST & _) & _ & GE & _)]); [split; [apply older_refl; exact ST|contradiction]|].
  split; [|intros _ s H; rewrite ST in H; cbn [kConf] in H; injection H as <-; reflexivity]. intros s H. rewrite ST. cbn [kConf]. eexists. split; [reflexivity|]. cbn [marshal setCur fLast]. rewrite <- (S _ H). exact GE.
Qed.
Lemma getConf_older C L P off e k r k' n : getConf C L P off e k = (r, k', n) -> older k k' /\ (r = Ok tt -> synced k').
Proof.
  intros E. apply getConf_step in E as (_ & _ & k1 & LD & ST & _ & _ & _ & H).
  assert (S1 : synced k1). { intros s Q. rewrite ST in Q. destruct LD as [KN _|s0 KS TC]; [congruence|]. assert (s0 = s) as -> by congruence. rewrite TC. reflexivity. }
  destruct H as [(_ & _ & F)|(-> & _)]; [|split; [apply older_refl; exact ST|auto]]. destruct (fetch_older _ _ _ _ _ _ _ S1 F) as [A B]. split; [|exact B]. eapply older_trans; [apply older_refl; exact ST|exact A].
Qed.
Lemma prepare_older C L P opens check off e k r k' n : prepare C L P opens true check off e k = (r, k', n) -> older k k' /\ (r = Ok tt -> synced k').
Proof.
  intros E. apply prepare_step in E as [(NE & _ & ST & _)|(k1 & r0 & n0 & n1 & ST & _ & _ & _ & _ & _ & _ & E & _ & _ & _ & OK)]; [split; [apply older_refl; exact ST|contradiction]|].
  apply getConf_older in E as [A B]. split; [eapply older_trans; [apply older_refl; exact ST|exact A]|]. intros R. apply B. apply OK. exact R.
Qed.
Lemma runStep_older C L P opens st k : older k (snd (fst (runStep C L P opens st k))).
Proof.
  destruct st as [off e|off e|off e|g]; cbn [runStep]; [| | |apply older_refl; reflexivity]; destruct (prepare _ _ _ _ _ _ _ _ _) as [[r k'] n] eqn:E; apply prepare_older in E as [A B]; cbn [fst snd]; try exact A; destruct r as [[]|x|]; cbn [fst snd]; try exact A.
  - destruct (fetchconf C L P e k') as [r2 k2] eqn:F. cbn [fst snd]. eapply older_trans; [exact A|]. apply (fetch_older _ _ _ _ _ _ _ (B eq_refl) F).
  - unfold upkeepUpdate. destruct (fetchconf C L P e k') as [r2 k2] eqn:F. assert (Q : older k k2) by (eapply older_trans; [exact A|]; apply (fetch_older _ _ _ _ _ _ _ (B eq_refl) F)). destruct r2; exact Q.
Qed.
Lemma runSteps_older C L P opens l : forall k, older k (runSteps C L P opens l k).
Proof. induction l as [|st l IH]; intros k; [apply older_refl; reflexivity|]. cbn [runSteps]. eapply older_trans; [apply runStep_older|apply IH]. Qed.
(* Over all commands, failed writes and restarts, the date of the stored configuration never decreases and a stored configuration is
   never lost. *)
Theorem C138_monotone : forall C L P opens l1 l2 k s1, kConf (tStore (runSteps C L P opens l1 k)) = Some s1 ->
  exists s2, kConf (tStore (runSteps C L P opens (l1 ++ l2) k)) = Some s2 /\ fLast s1 <= fLast s2.
Proof.
  intros C L P opens l1 l2 k s1 H. assert (A : forall k, runSteps C L P opens (l1 ++ l2) k = runSteps C L P opens l2 (runSteps C L P opens l1 k)). { clear. induction l1 as [|st l1 IH]; intros k; [reflexivity|]. cbn [app runSteps]. apply IH. }
  rewrite A. exact (runSteps_older C L P opens l2 _ _ H).
Qed.
Example C138_monotone_ex : exists s1 s2, kConf (tStore (runSteps toy noLib exProg exOpens (firstn 1 exHist) exNew)) = Some s1 /\ kConf (tStore (runSteps toy noLib exProg exOpens exHist exNew)) = Some s2 /\ fLast s1 = 1000000 /\ fLast s2 = 1060000 /\
  (* an older configuration is not taken *)
  kConf (tStore (runSteps toy noLib exProg exOpens (exHist ++ [SRestart exSet; SFetch false (mkEnv 1060001 (PropsConfig.serve 1059999 exFull) 2 true true (Ok (Some (str "pass"))))]) exNew)) = Some s2.
Proof. do 2 eexists. split; [vm_compute; reflexivity|]. split; [vm_compute; reflexivity|]. split; [reflexivity|]. split; [reflexivity|]. vm_compute. reflexivity. Qed.
Definition InvS (C : Crypto) (P : program) (h : list env) (k : ctrl) : Prop := forall s, kConf (tStore k) = Some s -> exists e, In e h /\ served C P e (fMap s) (fLast s).
Lemma InvS_store C P h k k' : tStore k' = tStore k -> InvS C P h k -> InvS C P h k'.
Proof. intros E I s H. rewrite E in H. exact (I _ H). Qed.
Lemma InvS_incl C P h h' k : incl h h' -> InvS C P h k -> InvS C P h' k.
Proof. intros Q I s H. destruct (I _ H) as (e & A & B). exists e. split; [apply Q; exact A|exact B]. Qed.
Lemma fetch_InvS C L P e h k r k' : InvS C P h k -> In e h -> fetchconf C L P e k = (r, k') -> InvS C P h k'.
Proof.
  intros I IN F. apply fetch_step in F as (_ & _ & [(ST & _)|((t & ST & _) & S & _)]); [exact (InvS_store _ _ _ _ _ ST I)|].
  intros s H. rewrite ST in H. cbn [kConf] in H. injection H as <-. exists e. split; [exact IN|exact S].
Qed.
Lemma prepare_InvS C L P opens check off e h k r k' n : InvS C P h k -> In e h -> prepare C L P opens true check off e k = (r, k', n) -> InvS C P h k'.
Proof.
  intros I IN E. apply prepare_step in E as [(_ & _ & ST & _)|(k1 & r0 & n0 & n1 & ST & _ & _ & _ & _ & _ & _ & E & _)]; [exact (InvS_store _ _ _ _ _ ST I)|].
  apply getConf_step in E as (_ & _ & k2 & _ & ST2 & _ & _ & _ & [(_ & _ & F)|(-> & _)]); [refine (fetch_InvS _ _ _ _ _ _ _ _ _ IN F)|]; apply (InvS_store _ _ _ k); [congruence|exact I|congruence|exact I].
Qed.
Lemma runSteps_InvS C L P opens l : forall h k, InvS C P h k -> incl (flat_map stepEnvs l) h -> InvS C P h (runSteps C L P opens l k).
Proof.
  induction l as [|st l IH]; intros h k I Q; [exact I|]. cbn [flat_map runSteps] in *. apply incl_app_inv in Q as [Q1 Q2]. apply IH; [|exact Q2]. clear IH Q2.
  destruct st as [off e|off e|off e|g]; cbn [runStep stepEnvs] in *; [| | |exact I]; (assert (IN : In e h) by (apply Q1; left; reflexivity)); destruct (prepare _ _ _ _ _ _ _ _ _) as [[r k'] n] eqn:E; pose proof (prepare_InvS _ _ _ _ _ _ _ _ _ _ _ _ I IN E) as I1; cbn [fst snd]; try exact I1; destruct r as [[]|x|]; cbn [fst snd]; try exact I1.
  - destruct (fetchconf C L P e k') as [r2 k2] eqn:F. exact (fetch_InvS _ _ _ _ _ _ _ _ I1 IN F).
  - unfold upkeepUpdate. destruct (fetchconf C L P e k') as [r2 k2] eqn:F. pose proof (fetch_InvS _ _ _ _ _ _ _ _ I1 IN F) as I2. destruct r2; exact I2.
Qed.
(* whatever was stored was served to one of the commands, signed by the key in the program with a date within four hours of its clock *)
Theorem C138_signed : forall C L P opens l k s, kConf (tStore k) = None -> kConf (tStore (runSteps C L P opens l k)) = Some s ->
  exists e, In e (flat_map stepEnvs l) /\ served C P e (fMap s) (fLast s).
Proof.
  intros C L P opens l k s KN H. assert (I0 : InvS C P (flat_map stepEnvs l) k) by (intros s0 Q; congruence). exact (runSteps_InvS C L P opens l _ k I0 (incl_refl _) _ H).
Qed.
(* ... but not before it is known to be usable: the configuration is stored and then rejected *)
Theorem C138_unusable_refuted : exists C L P opens e k k' s x, fresh k /\ runStep C L P opens (SCommand false e) k = (Err x, k', [NConfig]) /\ kConf (tStore k') = Some s /\ forall g, is_ok (fst (initMute s g)) = false.
Proof.
  exists toy, noLib, exProg, exOpens, (exEnv 1000000 2 exMap), exNew. do 3 eexists. split; [repeat split|]. split; [vm_compute; reflexivity|]. split; [reflexivity|]. intros [rpc mix acc snd wal loo gua tru cle ca ma own usg]. vm_compute. reflexivity.
Qed.

(* ---------------- C139: --offline ---------------- *)
(* commands other than upkeep fetchconf and upkeep update make no connection with --offline *)
Theorem C139_command_partial : forall C L P opens openDB check e k, snd (prepare C L P opens openDB check true e k) = [].
Proof.
  intros C L P opens openDB check e k. destruct openDB; [|reflexivity]. destruct (prepare _ _ _ _ _ _ _ _ _) as [[r k'] n] eqn:E. cbn [snd]. apply prepare_step in E as [(_ & -> & _)|(k1 & r0 & n0 & n1 & _ & _ & _ & _ & _ & _ & _ & E & -> & N1 & _)]; [reflexivity|].
  destruct N1 as [-> |[Q _]]; [|discriminate Q]. rewrite app_nil_r. apply getConf_step in E as (_ & _ & k2 & _ & _ & _ & _ & _ & [(Q & _)|(_ & -> & _)]); [discriminate Q|reflexivity].
Qed.
(* an interactive session in which every line repeats the option makes none either *)
Theorem C139_lines_partial : forall C L P opens e lines k, Forall (fun l => fst l = true) lines -> snd (interactive C L P opens true e lines k) = [].
Proof.
  intros C L P opens e lines k H. unfold interactive. pose proof (C139_command_partial C L P opens true true e k) as N0. destruct (prepare _ _ _ _ _ _ _ _ _) as [[r k'] n]. cbn [snd] in N0. subst n.
  assert (A : forall k, snd (loopLines C L P opens lines k) = []).
  { clear -H. induction H as [|[off e] lines O H IH]; intros k; [reflexivity|]. cbn [fst] in O. subst off. cbn [loopLines]. pose proof (C139_command_partial C L P opens true true e k) as N0. destruct (prepare _ _ _ _ _ _ _ _ _) as [[r k'] n]. cbn [snd] in N0. subst n.
    specialize (IH k'). destruct (loopLines C L P opens lines k') as [rs ns]. cbn [snd] in IH. subst ns. destruct r; reflexivity. }
  destruct r as [[]|x|]; [|reflexivity|reflexivity]. specialize (A k'). destruct (loopLines C L P opens lines k') as [rs ns]. cbn [snd] in A |- *. rewrite A. reflexivity.
Qed.
Definition exFetched : ctrl := restart exSet (runSteps toy noLib exProg exOpens [SCommand false (exEnv 1000000 2 (exRel exFull))] exNew).
Example C139_lines_ex : interactive toy noLib exProg exOpens true (exDown 1000005) [(true, exDown 1000010); (true, exDown 1700000); (true, exDown 1000020)] exFetched =
  ([Ok tt; Ok tt; Err "ctrlengine: configuration is outdated, please run without --offline"; Ok tt], []).
Proof. vm_compute. reflexivity. Qed.
(* but a session started with --offline goes online with the first line *)
Theorem C139_refuted : exists C L P opens e line k, interactive C L P opens true e [(false, line)] k = ([Ok tt; Ok tt], [NKeys]).
Proof. exists toy, noLib, exProg, exOpens, (exDown 1000005), (exDown 1000010), exFetched. vm_compute. reflexivity. Qed.
(* and upkeep fetchconf does not look at the option *)
Theorem C139_fetchconf : forall C L P opens e k k', prepare C L P opens true true true e k = (Ok tt, k', []) -> snd (runStep C L P opens (SFetch true e) k) = [NConfig].
Proof. intros C L P opens e k k' E. cbn [runStep]. rewrite E. destruct (fetchconf C L P e k'). reflexivity. Qed.
Example C139_fetchconf_ex : exists k', prepare toy noLib exProg exOpens true true true (exDown 1000005) exFetched = (Ok tt, k', []).
Proof. eexists. vm_compute. reflexivity. Qed.

(* ---------------- C140: failed fetches ---------------- *)
Definition listed (P : program) (e : env) : list bytes := order (oPerm (vWorld e)) (sortServers (parseServers (str "10," ++ gHost P))).
Definition atEnd (P : program) (k : ctrl) : Prop := forall e, (length (listed P e) <= fCur (tCfg k))%nat.
Lemma update_down C L o now c : (forall u, oConfig o u = None) -> order (oPerm o) (sortServers (parseServers (fURL c))) <> [] ->
  exists r c', update C L o now c = (r, c') /\ r <> Ok tt /\ fURL c' = fURL c /\ (length (order (oPerm o) (sortServers (parseServers (fURL c)))) <= fCur c')%nat.
Proof.
  intros D NE. unfold update. destruct (order (oPerm o) _) as [|s0 ss0] eqn:SS; [congruence|]. rewrite <- SS. clear SS. set (servers := order _ _) in *. set (c0 := if fLast c =? 0 then _ else c).
  assert (U0 : fURL c0 = fURL c /\ fCur c0 = fCur c) by (unfold c0; destruct (fLast c =? 0); split; reflexivity). destruct U0 as [U0 K0]. rewrite K0.
  destruct (Nat.le_gt_cases (length servers) (fCur c)) as [G|G].
  - rewrite (skipn_length_le _ _ G). cbn [tryFrom]. eexists. eexists. split; [reflexivity|]. split; [discriminate|]. cbn [setCur fURL fCur]. auto.
  - destruct (tryFrom_all (fun u => getConfig C o now u (fPub c0) (fLast c0)) (skipn (fCur c) servers) (fCur c)) as [e TR].
    { intros s. unfold getConfig. rewrite D. cbn [certify]. eauto. } { intros Q. apply (f_equal (@length bytes)) in Q. rewrite skipn_length in Q. cbn [length] in Q. lia. }
    rewrite TR. eexists. eexists. split; [reflexivity|]. split; [discriminate|]. cbn [setCur fURL fCur]. split; [exact U0|]. rewrite skipn_length. lia.
Qed.
Lemma update_end C L o now c : order (oPerm o) (sortServers (parseServers (fURL c))) <> [] -> (length (order (oPerm o) (sortServers (parseServers (fURL c)))) <= fCur c)%nat -> fst (update C L o now c) = Panic.
Proof.
  intros NE G. unfold update. destruct (order (oPerm o) _) as [|s0 ss0] eqn:SS; [congruence|]. rewrite <- SS in *. clear SS s0 ss0. set (c1 := if fLast c =? 0 then _ else c). assert (K1 : fCur c1 = fCur c) by (unfold c1; destruct (fLast c =? 0); reflexivity). rewrite K1.
  rewrite (skipn_length_le (fCur c)); [reflexivity|exact G].
Qed.
Lemma listed_nonempty P e e' : listed P e <> [] -> listed P e' <> [].
Proof. unfold listed. intros H Q. apply H. pose proof (length_order (oPerm (vWorld e)) (oPerm (vWorld e')) (sortServers (parseServers (str "10," ++ gHost P)))) as LE. rewrite Q in LE. destruct (order (oPerm (vWorld e)) _); [reflexivity|discriminate LE]. Qed.
Lemma fetch_down C L P e k : (forall u, oConfig (vWorld e) u = None) -> listed P e <> [] -> exists r k', fetchconf C L P e k = (r, k') /\ r <> Ok tt /\ atEnd P k'.
Proof.
  intros D NE. unfold fetchconf. set (c0 := mkCfg _ _ _ _ _ _). destruct (update_down C L (vWorld e) (vNow e) c0 D NE) as (r & c' & -> & NR & _ & G).
  assert (A : atEnd P (setCfg k c')). { intros e'. cbn [setCfg tCfg]. unfold listed. rewrite (length_order (oPerm (vWorld e')) (oPerm (vWorld e))). exact G. }
  destruct r as [[]|x|]; [contradiction NR; reflexivity| |]; eexists; eexists; (split; [reflexivity|]); (split; [discriminate|exact A]).
Qed.
Lemma fetch_end C L P e k : listed P e <> [] -> atEnd P k -> fst (fetchconf C L P e k) = Panic.
Proof.
  intros NE A. unfold fetchconf. set (c0 := mkCfg _ _ _ _ _ _). pose proof (update_end C L (vWorld e) (vNow e) c0 NE (A e)) as U. destruct (update _ _ _ _ c0) as [r c']. cbn [fst] in U. subst r. reflexivity.
Qed.
Lemma atEnd_load P k k1 : atEnd P k -> loaded k k1 -> atEnd P k1.
Proof. intros A LD e. destruct LD as [_ TC|s _ TC]; rewrite TC; [|cbn [unmarshal fCur]]; apply A. Qed.
(* one command of a session in which the list of servers is used up: it makes no fetch, or crashes *)
Lemma command_end C L P opens off e k r k' n : (exists e0, listed P e0 <> []) -> atEnd P k -> prepare C L P opens true true off e k = (r, k', n) -> r = Panic \/ atEnd P k' /\ ~ In NConfig n.
Proof.
  intros [e0 NE] A E. apply prepare_step in E as [(_ & -> & _ & TC & _)|(k1 & r0 & n0 & n1 & _ & TC & _ & _ & _ & _ & _ & E & -> & N1 & RR & OK)].
  - right. split; [intros e1; rewrite TC; apply A|intros []].
  - assert (A1 : atEnd P k1) by (intros e1; rewrite TC; apply A). apply getConf_step in E as (_ & _ & k2 & LD & _ & _ & _ & _ & [(_ & -> & F)|(-> & -> & _)]).
    + left. pose proof (fetch_end C L P e k2 (listed_nonempty P e0 e NE) (atEnd_load _ _ _ A1 LD)) as Q. rewrite F in Q. cbn [fst] in Q. subst r0. apply RR. discriminate.
    + right. split; [exact (atEnd_load _ _ _ A1 LD)|]. cbn [app]. destruct N1 as [-> |[_ ->]]; [intros []|intros [Q|[]]; discriminate Q].
Qed.
(* In an interactive session: a command fetches the configuration (it is a day old) while no server answers.  The command fails, and
   the next command of the session that fetches it crashes mutectrl, whatever the servers then answer. *)
Theorem C140_crash : forall C L P opens e1 k r k1 n lines, (forall u, oConfig (vWorld e1) u = None) -> listed P e1 <> [] ->
  runStep C L P opens (SCommand false e1) k = (r, k1, NConfig :: n) -> r <> Ok tt /\ (In NConfig (snd (loopLines C L P opens lines k1)) -> In Panic (fst (loopLines C L P opens lines k1))).
Proof.
  intros C L P opens e1 k r k1 n lines D NE E. cbn [runStep] in E.
  apply prepare_step in E as [(_ & Q & _)|(k0 & r0 & n0 & n1 & _ & _ & _ & _ & _ & _ & _ & E & N0 & N1 & RR & _)]; [discriminate Q|].
  apply getConf_step in E as (_ & _ & k2 & LD & _ & _ & _ & _ & [(_ & -> & F)|(_ & -> & _)]).
  2:{ exfalso. cbn [app] in N0. destruct N1 as [-> |[_ ->]]; discriminate N0. }
  destruct (fetch_down C L P e1 k2 D NE) as (r2 & k3 & F2 & NR & A). assert (r2 = r0) as -> by congruence. assert (k3 = k1) as -> by congruence. split; [rewrite (RR NR); exact NR|]. clear -A NE.
  revert k1 A. induction lines as [|[off e] lines IH]; intros k A; [intros []|]. cbn [loopLines]. destruct (prepare C L P opens true true off e k) as [[r k'] n] eqn:E. destruct (command_end C L P opens off e k r k' n (ex_intro _ e1 NE) A E) as [-> |[A' NN]]; [intros _; left; reflexivity|].
  specialize (IH k' A'). destruct (loopLines C L P opens lines k') as [rs ns]. cbn [fst snd] in IH. destruct r as [[]|x|]; cbn [fst snd]; [| |intros Q; contradiction]; rewrite in_app_iff; intros [Q|Q]; try contradiction; right; exact (IH Q).
Qed.
Definition exOpen : ctrl := runSteps toy noLib exProg exOpens [SCommand false (exDown 1000005)] exFetched.
Example C140_crash_ex : listed exProg (exDown 1100000) <> [] /\ (exists r k1, runStep toy noLib exProg exOpens (SCommand false (exDown 1100000)) exOpen = (r, k1, [NConfig]) /\
  loopLines toy noLib exProg exOpens [(true, exDown 1100001); (false, exEnv 1100100 2 (exRel exFull)); (false, exEnv 1100200 2 (exRel exFull))] k1 = ([Ok tt; Panic], [NConfig])).
Proof. split; [vm_compute; discriminate|]. do 2 eexists. split; [vm_compute; reflexivity|]. vm_compute. reflexivity. Qed.
Theorem C140_refuted : exists C L P opens bad good k, tOpen k = true /\ runStep C L P opens (SCommand false good) k = (Ok tt, snd (fst (runStep C L P opens (SCommand false good) k)), [NConfig; NKeys]) /\
  fst (loopLines C L P opens [(false, bad); (false, good)] k) = [Err "json"; Panic].
Proof. exists toy, noLib, exProg, exOpens, (exDown 1100000), (exEnv 1100100 2 (exRel exFull)), exOpen. split; [vm_compute; reflexivity|]. split; vm_compute; reflexivity. Qed.
(* A new process recovers: with servers that answer with a newer, usable configuration it is prepared.  Missing: within the process. *)
Definition usable (m : list ConfigModel.entry) : Prop := forall c g, fMap c = m -> is_ok (fst (initMute c g)) = true.
Definition storedDate (k : ctrl) : N := match kConf (tStore k) with Some s => fLast s | None => 0 end.
Lemma fetch_works C L P e k cert : fCur (tCfg k) = 0%nat -> listed P e <> [] -> (forall u, oConfig (vWorld e) u = Some cert) ->
  certify C (vNow e) (if fLast (tCfg k) =? 0 then u64 (vNow e - 82800) else fLast (tCfg k)) (gPub P) (Some cert) = Ok cert -> lookup (str "CACertHash") (sConfig cert) = None -> usable (sConfig cert) -> (2 <= vAdds e)%nat -> vWrite e = true ->
  fst (fetchconf C L P e k) = Ok tt.
Proof.
  intros Z0 NE OC CE CA US VA VW. unfold fetchconf. set (c0 := mkCfg _ _ _ _ _ _).
  destruct (C52_works_partial C L (vWorld e) (vNow e) c0 cert) as (c' & U & M & _).
  { cbn [c0 fCur fURL]. rewrite Z0. unfold listed in NE. destruct (order _ _); [contradiction NE; reflexivity|cbn [length]; lia]. } { exact OC. } { exact CE. } { intros h Q. rewrite CA in Q. discriminate Q. }
  rewrite U. destruct (vAdds e) as [|[|m]]; [lia|lia|]. cbn [setStore setCfg tSet tStore tCfg]. pose proof (US c' (tSet k) M) as UI. destruct (initMute c' (tSet k)) as [r g]. destruct r as [[]|x|]; [|discriminate UI|discriminate UI]. rewrite VW. reflexivity.
Qed.
Theorem C140_restart_partial : forall C L P e g k cert, listed P e <> [] -> (forall u, oConfig (vWorld e) u = Some cert) ->
  certify C (vNow e) (if storedDate k =? 0 then u64 (vNow e - 82800) else storedDate k) (gPub P) (Some cert) = Ok cert -> lookup (str "CACertHash") (sConfig cert) = None -> usable (sConfig cert) -> (2 <= vAdds e)%nat -> vWrite e = true ->
  kTime (tStore k) = [] \/ parseInt (kTime (tStore k)) <> None -> fst (fst (getConf C L P false e (restart g k))) = Ok tt.
Proof.
  intros C L P e g k cert NE OC CE CA US VA VW KT. unfold getConf, storedDate in *. cbn [restart tStore tCfg tSet]. destruct (kConf (tStore k)) as [s|].
  - destruct (initMute (unmarshal s zeroCfg) g) as [r g1] eqn:IM.
    assert (F : fst (fst (fetchconf C L P e (setSet (setCfg (restart g k) (unmarshal s zeroCfg)) g1), [NConfig])) = Ok tt) by (apply (fetch_works C L P e _ cert); [reflexivity|exact NE|exact OC|exact CE|exact CA|exact US|exact VA|exact VW]).
    destruct r as [[]|x|]; [|exact F|pose proof (initMute_np (unmarshal s zeroCfg) g) as NP; rewrite IM in NP; contradiction NP; reflexivity].
    cbn [setSet setCfg tStore restart]. destruct (kTime (tStore k)) as [|c t] eqn:KE; [reflexivity|]. destruct (parseInt (c :: t)) as [z|]; [|destruct KT as [Q|Q]; [discriminate Q|contradiction Q; reflexivity]]. destruct (minAge <? vNow e - z)%Z; [exact F|reflexivity].
  - apply (fetch_works C L P e _ cert); [reflexivity|exact NE|exact OC|exact CE|exact CA|exact US|exact VA|exact VW].
Qed.
Lemma exFull_usable : usable (exRel exFull).
Proof. intros [pub url ca m la cu] [rpc mix acc snd wal loo gua tru cle ca2 ma own usg] E. cbn [fMap] in E. subst m. vm_compute. reflexivity. Qed.
Example C140_restart_ex : exists cert, (forall u, oConfig (vWorld (exEnv 1100100 2 (exRel exFull))) u = Some cert) /\ storedDate exOpen = 1000000 /\ certify toy 1100100 1000000 (gPub exProg) (Some cert) = Ok cert /\ sConfig cert = exRel exFull /\ parseInt (kTime (tStore exOpen)) = Some 1000000%Z.
Proof. eexists. split; [intros u; reflexivity|]. split; [vm_compute; reflexivity|]. split; [vm_compute; reflexivity|]. split; [reflexivity|]. vm_compute. reflexivity. Qed.

(* ---------------- C141: updates ---------------- *)
(* The release in the configuration and the program, as dates in seconds *)
Definition dates (P : program) (c : config) (rel bin : Z) : Prop := parseDate P (inMap c "release.Date") = Some rel /\ parseDate P (gDate P) = Some bin.
Definition otherRelease (P : program) (c : config) : Prop := lookup (str "release.Commit") (fMap c) <> Some (gCommit P).
Lemma commit_spec P c : gCommit P <> [] -> beq (gCommit P) (inMap c "release.Commit") = false <-> otherRelease P c.
Proof.
  intros NE. rewrite beq_neq. unfold inMap, setting, otherRelease. destruct (lookup _ _) as [v|]; cbn [orEmpty]; [|split; [discriminate|congruence]]. split; congruence.
Qed.
(* commands are refused exactly if the program is more than 14 days older than the release; the user is told about a new release exactly
   if it is newer but not by more *)
Theorem C141_forced : forall P c rel bin, gCommit P <> [] -> dates P c rel bin ->
  (is_ok (checkUpdates P c) = false <-> otherRelease P c /\ (rel - bin > 14 * 24 * 60 * 60)%Z) /\
  (checkUpdates P c = Ok true <-> otherRelease P c /\ (0 < rel - bin <= 14 * 24 * 60 * 60)%Z).
Proof.
  intros P c rel bin NE [D1 D2]. rewrite <- (commit_spec P c NE). unfold checkUpdates. rewrite D1, D2. unfold updateDuration. destruct (beq _ _); [split; split; [discriminate|intros [Q _]; discriminate Q|discriminate|intros [Q _]; discriminate Q]|].
  destruct (bin <? rel)%Z eqn:A; cbn [negb].
  - destruct (bin + 1209600 <? rel)%Z eqn:B; split; split; try discriminate; try reflexivity; intros; try (split; [reflexivity|lia]); lia.
  - split; split; try discriminate; intros [_ Q]; lia.
Qed.
(* whenever the user is told to run upkeep update, or commands are refused because the program is outdated, upkeep update with the same
   configuration installs the release *)
Theorem C141_advice : forall P c rel bin, dates P c rel bin -> checkUpdates P c <> Ok false -> updateDue P c = Ok true.
Proof.
  intros P c rel bin [D1 D2]. unfold checkUpdates, updateDue. rewrite D1, D2. destruct (beq _ _); [intros Q; contradiction Q; reflexivity|]. destruct (bin <? rel)%Z eqn:A; cbn [negb]; [|intros Q; contradiction Q; reflexivity].
  intros _. destruct (rel <? bin)%Z eqn:B; [lia|reflexivity].
Qed.
Definition exOld : program := mkProg (edpub toy exPriv) (str "cfg.mute.one") (str "0ff1ce") (str "1000000") parseInt.
Definition exDated (d : String.string) : list ConfigModel.entry := (str "release.Date", str d) :: exRel exFull.
Arguments exDated d%string.
Example C141_ex : dates exOld (withMap (exDated "2209601")) 2209601 1000000 /\ is_ok (checkUpdates exOld (withMap (exDated "2209601"))) = false /\
  checkUpdates exOld (withMap (exDated "2209600")) = Ok true /\ checkUpdates exOld (withMap (exDated "1000001")) = Ok true /\ checkUpdates exOld (withMap (exDated "1000000")) = Ok false.
Proof. split; [split; vm_compute; reflexivity|]. repeat split; vm_compute; reflexivity. Qed.
(* If the configuration names another release without a date that can be parsed, every command is refused while this configuration is
   used, including upkeep fetchconf; only upkeep update fetches a new one. *)
Theorem C141_blocked : forall C L P opens off e k s z, gCommit P <> [] -> tCfg k = unmarshal s (tCfg k) -> kConf (tStore k) = Some s -> kTime (tStore k) <> [] -> parseInt (kTime (tStore k)) = Some z -> (vNow e - z <= 86400)%Z ->
  is_ok (fst (initMute (tCfg k) (tSet k))) = true -> otherRelease P (tCfg k) -> parseDate P (inMap (tCfg k) "release.Date") = None ->
  fst (fst (runStep C L P opens (SCommand off e) k)) <> Ok tt /\ fst (fst (runStep C L P opens (SFetch off e) k)) <> Ok tt /\ tStore (snd (fst (runStep C L P opens (SFetch off e) k))) = tStore k.
Proof.
  intros C L P opens off e k s z NE UM KS KT PI AGE IM OT PD.
  assert (B : forall r k' n, prepare C L P opens true true off e k = (r, k', n) -> r <> Ok tt /\ tStore k' = tStore k).
  { intros r k' n E. apply prepare_step in E as [(NR & _ & ST & _)|(k1 & r0 & n0 & n1 & ST & TC & TS & _ & _ & _ & _ & E & _ & _ & RR & OK)]; [split; [exact NR|exact ST]|].
    unfold getConf in E. rewrite ST, KS, TC, TS, <- UM in E. destruct (initMute (tCfg k) (tSet k)) as [ri g]. destruct ri as [[]|x|]; [|discriminate IM|discriminate IM]. cbn [setSet setCfg tStore] in E. rewrite ST in E.
    destruct (kTime (tStore k)) as [|c0 t0] eqn:KE; [contradiction KT; reflexivity|]. rewrite PI in E. unfold minAge in E. assert (A : (86400 <? vNow e - z)%Z = false) by lia. rewrite A in E. injection E as <- <- <-. cbn [setSet setCfg tStore tCfg] in *.
    split; [|exact ST]. intros R. destruct (OK R) as [_ CK]. specialize (CK eq_refl). unfold checkUpdates in CK. apply (commit_spec P _ NE) in OT. rewrite OT, PD in CK. discriminate CK. }
  cbn [runStep]. destruct (prepare C L P opens true true off e k) as [[r k'] n] eqn:E. destruct (B _ _ _ eq_refl) as [NR ST]. cbn [fst snd]. split; [exact NR|]. destruct r as [[]|x|]; [contradiction NR; reflexivity| |]; cbn [fst snd]; auto.
Qed.
Theorem C141_refuted : exists C L P opens k good, tOpen k = true /\
  fst (fst (runStep C L P opens (SCommand false good) k)) = Err "time.Parse"%string /\ fst (fst (runStep C L P opens (SFetch false good) k)) = Err "time.Parse"%string /\
  (* upkeep update gets the good configuration, and then commands work again *)
  fst (fst (runStep C L P opens (SUpdate false good) k)) = Ok tt /\ fst (fst (runStep C L P opens (SCommand false good) (runSteps C L P opens [SUpdate false good] k))) = Ok tt.
Proof.
  exists toy, noLib, exOld, exOpens, (runSteps toy noLib exOld exOpens [SCommand false (exEnv 1000000 2 (exRel exFull))] exNew), (exEnv 1000100 2 (exDated "1000000")). split; [vm_compute; reflexivity|]. repeat split; vm_compute; reflexivity.
Qed.
Example C141_blocked_ex : let k := runSteps toy noLib exOld exOpens [SCommand false (exEnv 1000000 2 (exRel exFull))] exNew in exists s, kConf (tStore k) = Some s /\ tCfg k = unmarshal s (tCfg k) /\ parseInt (kTime (tStore k)) = Some 1000000%Z /\
  is_ok (fst (initMute (tCfg k) (tSet k))) = true /\ otherRelease exOld (tCfg k) /\ parseDate exOld (inMap (tCfg k) "release.Date") = None.
Proof. cbv zeta. eexists. split; [vm_compute; reflexivity|]. split; [vm_compute; reflexivity|]. split; [vm_compute; reflexivity|]. split; [vm_compute; reflexivity|]. split; [vm_compute; discriminate|vm_compute; reflexivity]. Qed.

(* ---------------- C142: wallet keys ---------------- *)
(* a private key of 64 bytes is used as it is, and its second half is what is printed as public key.  Missing: other lengths. *)
Theorem C142_key_partial : forall key, wfb key -> lenN key = 64 -> decodeWalletKey (b64enc key) = Ok key /\ printWalletKey (b64enc key) = Ok (str "WALLETPUBKEY:" ++ [9] ++ b64enc (dropN 32 key) ++ [10]).
Proof.
  intros key W LN. unfold decodeWalletKey, printWalletKey. rewrite (b64dec_enc key W). split; [rewrite takeN_app by exact LN; reflexivity|]. rewrite LN. reflexivity.
Qed.
(* any other length is accepted as well: missing bytes are zero, bytes too many are ignored *)
Theorem C142_accepts : forall d, wfb d -> exists key, decodeWalletKey (b64enc d) = Ok key /\ lenN key = 64 /\ (lenN d <= 64 -> key = d ++ repeat 0 (64 - length d)) /\ (64 <= lenN d -> key = takeN 64 d).
Proof.
  intros d W. unfold decodeWalletKey. rewrite (b64dec_enc d W). eexists. split; [reflexivity|]. assert (LR : lenN (repeat 0 64) = 64) by reflexivity. assert (LL : lenN (d ++ repeat 0 64) = lenN d + 64) by (rewrite lenN_app, LR; reflexivity). split; [rewrite lenN_takeN, LL; lia|]. split; intros H.
  - assert (Q : d ++ repeat 0 64 = (d ++ repeat 0 (64 - length d)) ++ repeat 0 (length d)) by (rewrite <- app_assoc, <- repeat_app; do 2 f_equal; unfold lenN in H; lia).
    rewrite Q. apply takeN_app. unfold lenN in *. rewrite app_length, repeat_length. lia.
  - rewrite <- (takeN_dropN 64 d) at 1. rewrite <- app_assoc. apply takeN_app. rewrite lenN_takeN. lia.
Qed.
(* a key that is too short makes db create crash when everything is created and stored; it is used with zeros afterwards *)
Theorem C142_refuted : exists w key, printWalletKey w = Panic /\ decodeWalletKey w = Ok key /\ key = 1 :: 2 :: repeat 0 62.
Proof. exists (b64enc [1; 2]). eexists. split; [vm_compute; reflexivity|]. split; vm_compute; reflexivity. Qed.
Example C142_ex : printWalletKey (b64enc (map N.of_nat (seq 0 64))) = Ok (str "WALLETPUBKEY:" ++ [9] ++ b64enc (map N.of_nat (seq 32 32)) ++ [10]).
Proof. vm_compute. reflexivity. Qed.

(* ---------------- C143: delays ---------------- *)
Theorem C143_accepted : forall mind maxd, is_ok (delayArgs false mind maxd) = true <-> (60 <= mind < maxd)%Z.
Proof. intros mind maxd. unfold delayArgs. cbn [negb andb]. destruct (mind <? 60)%Z eqn:A; [split; [discriminate|lia]|]. destruct (maxd <? 61)%Z eqn:B; [split; [discriminate|lia]|]. destruct (maxd <=? mind)%Z eqn:D; [split; [discriminate|lia]|]. split; [lia|reflexivity]. Qed.
(* the delays that are used.  Missing: values beyond 32 bits. *)
Theorem C143_used_partial : forall mind maxd x y, (maxd < 2 ^ 31)%Z -> delayArgs false mind maxd = Ok (x, y) -> x = mind /\ y = maxd /\ (60 <= x < y)%Z.
Proof.
  intros mind maxd x y H E. assert (A : is_ok (delayArgs false mind maxd) = true) by (rewrite E; reflexivity). apply C143_accepted in A. unfold delayArgs in E. cbn [negb andb] in E. destruct (mind <? 60)%Z; [discriminate E|]. destruct (maxd <? 61)%Z; [discriminate E|]. destruct (maxd <=? mind)%Z; [discriminate E|].
  injection E as <- <-. unfold toInt32. lia.
Qed.
Theorem C143_refuted : exists mind maxd x y, delayArgs false mind maxd = Ok (x, y) /\ (y < x)%Z /\ (y < 60)%Z.
Proof. exists 120%Z, 4294967301%Z. do 2 eexists. split; [vm_compute; reflexivity|]. lia. Qed.
Example C143_ex : delayArgs false 60 61 = Ok (60%Z, 61%Z) /\ delayArgs false 59 61 = Err "--mindelay must be at least 60"%string /\ is_ok (delayArgs false 120 120) = false.
Proof. repeat split; vm_compute; reflexivity. Qed.

(* ---------------- C144: the configuration file for the other programs ---------------- *)
Lemma initMute_same c c2 g g2 : (forall x, lookup x (fMap c) = lookup x (fMap c2)) -> is_ok (fst (initMute c g)) = true -> is_ok (fst (initMute c2 g2)) = true.
Proof.
  intros S H. destruct (initMute c g) as [r g'] eqn:E. destruct r as [[]|x|]; [|discriminate H|discriminate H]. clear H. apply C72_success_partial in E. destruct E as [R M A Sn W Lo Gu T Cl CA MA O U].
  assert (Q : exists g3, initMute c2 g2 = (Ok tt, g3)); [|destruct Q as [g3 ->]; reflexivity].
  exists (mkSet (match lookup (str "mixclient.RPCPort") (fMap c2) with Some (x :: p) => x :: p | _ => gRPC g2 end) (gMix g') (gAcc g') (gSender g') (gWallet g') (gLookup g') (gGuard g') (gTrust g') (gCleanup g') (fCA c2) (fMap c2) (gOwner g') (gUsage g')).
  rewrite C72_success_partial. rewrite ?S in *. constructor; cbn [gRPC gMix gAcc gSender gWallet gLookup gGuard gTrust gCleanup gCA gMap gOwner gUsage]; first [assumption|reflexivity|idtac].
Qed.
Lemma fetch_file C L P e k r k' : (2 <= vAdds e)%nat -> vWrite e = true -> fetchconf C L P e k = (r, k') ->
  (tStore k' = tStore k /\ tFile k' = tFile k /\ r <> Ok tt) \/
  (kConf (tStore k') = Some (marshal (tCfg k')) /\ (tFile k' = Some (marshal (tCfg k')) \/ r <> Ok tt /\ forall g, is_ok (fst (initMute (marshal (tCfg k')) g)) = false)).
Proof.
  intros VA VW. unfold fetchconf. set (c0 := mkCfg _ _ _ _ _ _). destruct (update C L (vWorld e) (vNow e) c0) as [r0 c]. destruct r0 as [[]|x|]; [|intros E; injection E as <- <-; left; split; [reflexivity|]; split; [reflexivity|discriminate]..].
  destruct (vAdds e) as [|[|m]]; [lia|lia|]. cbn [setStore setCfg tStore tCfg tSet]. destruct (initMute c (tSet k)) as [r1 g] eqn:IM. pose proof (initMute_np c (tSet k)) as NP. rewrite IM in NP.
  destruct r1 as [[]|x|]; [|intros E; injection E as <- <-|contradiction NP; reflexivity].
  - rewrite VW. intros E; injection E as <- <-. right. split; [reflexivity|left; reflexivity].
  - right. split; [reflexivity|]. right. split; [discriminate|]. intros g'. cbn [setSet setStore setCfg tCfg]. destruct (is_ok (fst (initMute (marshal c) g'))) eqn:OK; [|reflexivity]. apply (initMute_same _ c _ (tSet k)) in OK; [|reflexivity]. rewrite IM in OK. discriminate OK.
Qed.
Definition InvF (k : ctrl) : Prop := forall s, kConf (tStore k) = Some s -> tFile k = Some s \/ forall g, is_ok (fst (initMute s g)) = false.
Definition goodDiskEnv (e : env) : Prop := goodEnv e /\ vWrite e = true.
Lemma fetch_InvF C L P e k r k' : InvF k -> goodDiskEnv e -> fetchconf C L P e k = (r, k') -> InvF k' /\ (r = Ok tt -> tFile k' = kConf (tStore k')).
Proof.
  intros I [[VA _] VW] F. apply (fetch_file _ _ _ _ _ _ _ VA VW) in F as [(ST & FI & NR)|(KC & H)]; [split; [unfold InvF; rewrite ST, FI; exact I|contradiction]|].
  split; [|intros R; destruct H as [H|[Q _]]; [congruence|contradiction]]. intros s Q. assert (s = marshal (tCfg k')) as -> by congruence. destruct H as [H|[_ H]]; [left|right]; exact H.
Qed.
Lemma prepare_InvF C L P opens check off e h k r k' n : Inv C P h k -> InvF k -> goodDiskEnv e -> prepare C L P opens true check off e k = (r, k', n) -> InvF k' /\ (r = Ok tt -> tFile k' = kConf (tStore k')).
Proof.
  intros I IF G E. apply prepare_step in E as [(NE & _ & ST & _ & _ & FI & _)|(k1 & r0 & n0 & n1 & ST & TC & _ & FI & _ & _ & _ & E & _ & _ & _ & OK)].
  - split; [unfold InvF; rewrite ST, FI; exact IF|contradiction].
  - assert (I1 : Inv C P h k1) by (unfold Inv in *; rewrite ST, TC; exact I). assert (IF1 : InvF k1) by (unfold InvF; rewrite ST, FI; exact IF). clear I IF.
    apply getConf_step in E as (_ & _ & k2 & LD & ST2 & FI2 & _ & _ & [(_ & _ & F)|(-> & _ & OK2)]).
    + assert (IF2 : InvF k2) by (unfold InvF; rewrite ST2, FI2; exact IF1). destruct (fetch_InvF _ _ _ _ _ _ _ IF2 G F) as [A B]. split; [exact A|]. intros R. apply B. apply OK. exact R.
    + assert (IF2 : InvF k2) by (unfold InvF; rewrite ST2, FI2; exact IF1). split; [exact IF2|]. intros R. destruct (OK R) as [-> _]. destruct (OK2 eq_refl) as (IM & s & KS & _). destruct (load_Inv _ _ _ _ _ I1 LD ST2) as [_ SM]. rewrite <- ST2 in KS. specialize (SM _ KS). rewrite KS.
      destruct (IF2 _ KS) as [Q|Q]; [exact Q|]. exfalso. specialize (Q (tSet k1)). assert (W : is_ok (fst (initMute s (tSet k1))) = true) by (apply (initMute_same (tCfg k2) s (tSet k1)); [exact SM|rewrite IM; reflexivity]). rewrite W in Q. discriminate Q.
Qed.
Lemma runSteps_InvF C L P opens l : forall h k, Inv C P h k -> InvF k -> Forall goodDiskEnv (flat_map stepEnvs l) -> InvF (runSteps C L P opens l k).
Proof.
  induction l as [|st l IH]; intros h k I IF G; [exact IF|]. cbn [flat_map runSteps] in *. apply Forall_app in G as [G1 G2]. apply (IH (stepEnvs st ++ h)); [apply runStep_Inv; [exact I|eapply Forall_impl; [|exact G1]; intros e [A _]; exact A]| |exact G2]. clear IH G2.
  destruct st as [off e|off e|off e|g]; cbn [runStep stepEnvs] in *; [| | |exact IF]; apply Forall_inv in G1; destruct (prepare _ _ _ _ _ _ _ _ _) as [[r k'] n] eqn:E; destruct (prepare_InvF _ _ _ _ _ _ _ _ _ _ _ _ I IF G1 E) as [I1 _]; cbn [fst snd]; try exact I1; destruct r as [[]|x|]; cbn [fst snd]; try exact I1.
  - destruct (fetchconf C L P e k') as [r2 k2] eqn:F. apply (fetch_InvF _ _ _ _ _ _ _ I1 G1 F).
  - unfold upkeepUpdate. destruct (fetchconf C L P e k') as [r2 k2] eqn:F. destruct (fetch_InvF _ _ _ _ _ _ _ I1 G1 F) as [I2 _]. destruct r2; exact I2.
Qed.
(* When a command is performed, the configuration file that mutecrypt and muteproto read is the stored configuration, which has the entries
   that mutectrl uses.  Missing: writes that fail, see C144_refuted. *)
Theorem C144_file_partial : forall C L P opens l off e k k' n, fresh k -> Forall goodDiskEnv (flat_map stepEnvs l) -> goodDiskEnv e ->
  runStep C L P opens (SCommand off e) (runSteps C L P opens l k) = (Ok tt, k', n) -> exists s, tFile k' = Some s /\ kConf (tStore k') = Some s /\ forall x, lookup x (fMap (tCfg k')) = lookup x (fMap s).
Proof.
  intros C L P opens l off e k k' n (FN & FT & FC) G GE E. cbn [runStep] in E.
  assert (I0 : Inv C P [] k) by (unfold Inv; rewrite FN, FC; reflexivity). assert (IF0 : InvF k) by (intros s Q; congruence).
  assert (G' : Forall goodEnv (flat_map stepEnvs l)) by (eapply Forall_impl; [|exact G]; intros x [A _]; exact A).
  pose proof (runSteps_Inv C L P opens l [] k I0 G') as I. pose proof (runSteps_InvF C L P opens l [] k I0 IF0 G) as IF. destruct (prepare_InvF _ _ _ _ _ _ _ _ _ _ _ _ I IF GE E) as [_ B]. specialize (B eq_refl).
  destruct (kConf (tStore k')) as [s|] eqn:KS.
  - exists s. split; [exact B|]. split; [reflexivity|]. apply prepare_step in E as [(NE & _)|(k1 & r0 & n0 & n1 & ST & TC & TS & _ & _ & _ & _ & E & _ & _ & _ & OK)]; [contradiction NE; reflexivity|]. destruct (OK eq_refl) as [-> _].
    assert (I1 : Inv C P (flat_map stepEnvs l ++ []) k1) by (unfold Inv in *; rewrite ST, TC; exact I). apply getConf_step in E as (_ & _ & k2 & LD & ST2 & _ & _ & _ & [(_ & _ & F)|(-> & _ & OK2)]).
    + apply fetch_step in F as (_ & _ & [(_ & Q & _)|((t & ST3 & _) & _)]); [contradiction Q; reflexivity|]. rewrite ST3 in KS. cbn [kConf] in KS. injection KS as <-. reflexivity.
    + destruct (load_Inv _ _ _ _ _ I1 LD ST2) as [_ SM]. exact (SM _ KS).
  - exfalso. apply prepare_step in E as [(NE & _)|(k1 & r0 & n0 & n1 & ST & TC & TS & _ & _ & _ & _ & E & _ & _ & _ & OK)]; [contradiction NE; reflexivity|]. destruct (OK eq_refl) as [-> _].
    apply getConf_step in E as (_ & _ & k2 & LD & ST2 & _ & _ & _ & [(_ & _ & F)|(-> & _ & OK2)]).
    + apply fetch_step in F as (_ & _ & [(_ & Q & _)|((t & ST3 & _) & _)]); [contradiction Q; reflexivity|]. rewrite ST3 in KS. discriminate KS.
    + destruct (OK2 eq_refl) as (_ & s & Q & _). congruence.
Qed.
Example C144_file_ex : Forall goodDiskEnv (flat_map stepEnvs exHist) /\ exists k', runStep toy noLib exProg exOpens (SCommand false (exDown 1140000)) (runSteps toy noLib exProg exOpens exHist exNew) = (Ok tt, k', [NKeys]).
Proof.
  assert (G : forall now m, (0 <= now < 2 ^ 63)%Z -> goodDiskEnv (exEnv now 2 m)) by (intros now m H; split; [split; [cbn; lia|exact H]|reflexivity]).
  split; [cbn [flat_map stepEnvs exHist app]; repeat (constructor; [apply G; lia|]); constructor|]. eexists. vm_compute. reflexivity.
Qed.
(* the file could not be written once: for a day mutectrl uses the new configuration and the other programs the old one *)
Theorem C144_refuted : exists C L P opens l e k k' n f x, fresh k /\ runStep C L P opens (SCommand false e) (runSteps C L P opens l k) = (Ok tt, k', n) /\ tFile k' = Some f /\
  lookup x (fMap (tCfg k')) = Some (str "new") /\ lookup x (fMap f) = Some (str "old").
Proof.
  exists toy, noLib, exProg, exOpens, [SCommand false (exEnv 1000000 2 ((str "key", str "old") :: exRel exFull)); SFetch false (mkEnv 1000100 (PropsConfig.serve 1000100 ((str "key", str "new") :: exRel exFull)) 2 false true (Ok None))], (exDown 1080000), exNew. do 3 eexists. exists (str "key").
  split; [repeat split|]. split; [vm_compute; reflexivity|]. split; [vm_compute; reflexivity|]. split; vm_compute; reflexivity.
Qed.

Print Assumptions C136_fresh_partial.
Print Assumptions C136_refuted.
Print Assumptions C137_merge.
Print Assumptions C137_refuted.
Print Assumptions C137_start_partial.
Print Assumptions C138_monotone.
Print Assumptions C138_signed.
Print Assumptions C138_unusable_refuted.
Print Assumptions C139_command_partial.
Print Assumptions C139_lines_partial.
Print Assumptions C139_refuted.
Print Assumptions C139_fetchconf.
Print Assumptions C140_crash.
Print Assumptions C140_refuted.
Print Assumptions C140_restart_partial.
Print Assumptions C141_forced.
Print Assumptions C141_advice.
Print Assumptions C141_blocked.
Print Assumptions C141_refuted.
Print Assumptions C142_key_partial.
Print Assumptions C142_accepts.
Print Assumptions C142_refuted.
Print Assumptions C143_accepted.
Print Assumptions C143_used_partial.
Print Assumptions C143_refuted.
Print Assumptions C144_file_partial.
Print Assumptions C144_refuted.
