(* Mix and account client: C49, C54, C55, C71 and C80 - C83. *)
From Verif Require Import Base Base64Model CodecModel CodecProofs CryptoModel Asn1Model Asn1Proofs MixModel MixProofs MixClientModel.
Local Open Scope N_scope.

(* ------------------------------------------------------------------ *)
(* C54: authentication tokens. *)
Theorem C54_codec : forall (C : Crypto) priv now counter rand,
  now < 2 ^ 64 -> counter < 2 ^ 64 -> lenN rand = 32 ->
  lenN (createToken C priv now counter rand) = 144 /\
  checkToken C (createToken C priv now counter rand) = Ok (edpub C priv, now / 3600, counter).
Proof.
  intros C priv now counter rand Hn Hc Lr. unfold createToken. set (body := edpub C priv ++ rand ++ be 8 (now / 3600) ++ be 8 counter).
  assert (Lb : lenN body = 80) by (unfold body; rewrite !lenN_app, edpub_len, Lr, !lenN_be; reflexivity).
  assert (L : lenN (body ++ edsign C priv body) = 144) by (rewrite lenN_app, Lb, edsign_len; reflexivity).
  split; [exact L|]. unfold checkToken. rewrite L. change (negb (144 =? 144)) with false. cbv iota.
  rewrite (takeN_app body _ 80 Lb), (dropN_app body _ 80 Lb).
  assert (P : takeN 32 (body ++ edsign C priv body) = edpub C priv) by (unfold body; rewrite <- app_assoc; apply takeN_app, edpub_len).
  rewrite P, edverify_sign.
  assert (T1 : takeN 8 (dropN 64 (body ++ edsign C priv body)) = be 8 (now / 3600)).
  { unfold body. replace ((edpub C priv ++ rand ++ be 8 (now / 3600) ++ be 8 counter) ++ edsign C priv (edpub C priv ++ rand ++ be 8 (now / 3600) ++ be 8 counter))
      with ((edpub C priv ++ rand) ++ be 8 (now / 3600) ++ be 8 counter ++ edsign C priv (edpub C priv ++ rand ++ be 8 (now / 3600) ++ be 8 counter)) by (rewrite <- !app_assoc; reflexivity).
    rewrite dropN_app by (rewrite lenN_app, edpub_len, Lr; reflexivity). apply takeN_app, lenN_be. }
  assert (T2 : takeN 8 (dropN 72 (body ++ edsign C priv body)) = be 8 counter).
  { unfold body. replace ((edpub C priv ++ rand ++ be 8 (now / 3600) ++ be 8 counter) ++ edsign C priv (edpub C priv ++ rand ++ be 8 (now / 3600) ++ be 8 counter))
      with ((edpub C priv ++ rand ++ be 8 (now / 3600)) ++ be 8 counter ++ edsign C priv (edpub C priv ++ rand ++ be 8 (now / 3600) ++ be 8 counter)) by (rewrite <- !app_assoc; reflexivity).
    rewrite dropN_app by (rewrite !lenN_app, edpub_len, Lr, lenN_be; reflexivity). apply takeN_app, lenN_be. }
  rewrite T1, T2, !be_dec_be_id; [reflexivity| |]; change (256 ^ N.of_nat 8) with (2 ^ 64); lia.
Qed.
(* Accepted tokens have the documented layout and carry a valid signature of everything before it; so a changed token
   that is still accepted under the same key is a signature the owner did not make. *)
Theorem C54_sound : forall (C : Crypto) t pub lt lc, wfb t -> checkToken C t = Ok (pub, lt, lc) ->
  exists rand sig, lenN pub = 32 /\ lenN rand = 32 /\ lenN sig = 64 /\
    t = (pub ++ rand ++ be 8 lt ++ be 8 lc) ++ sig /\ edverify C pub (pub ++ rand ++ be 8 lt ++ be 8 lc) sig = true.
Proof.
  intros C t pub lt lc W. unfold checkToken. destruct (lenN t =? 144) eqn:L; cbn [negb]; [|discriminate]. apply N.eqb_eq in L.
  destruct (edverify _ _ _ _) eqn:V; [|discriminate]. intros H.
  assert (pub = takeN 32 t) as -> by (injection H; auto). assert (lt = be_dec (takeN 8 (dropN 64 t))) as -> by (injection H; auto).
  assert (lc = be_dec (takeN 8 (dropN 72 t))) as -> by (injection H; auto). clear H.
  assert (B : forall n, n <= 136 -> be 8 (be_dec (takeN 8 (dropN n t))) = takeN 8 (dropN n t)).
  { intros n Hn. rewrite <- (be_be_dec (takeN 8 (dropN n t))) at 2 by (apply wfb_takeN, wfb_dropN, W). f_equal.
    assert (X : lenN (takeN 8 (dropN n t)) = 8) by (rewrite lenN_takeN, lenN_dropN; lia). unfold lenN in X. lia. }
  rewrite !B by lia.
  assert (Sp : takeN 32 t ++ takeN 32 (dropN 32 t) ++ takeN 8 (dropN 64 t) ++ takeN 8 (dropN 72 t) = takeN 80 t).
  { set (u := takeN 80 t). assert (Lu : lenN u = 80) by (unfold u; rewrite lenN_takeN; lia).
    assert (E : t = u ++ dropN 80 t) by (symmetry; apply takeN_dropN).
    assert (Eq : forall n m, n + m <= 80 -> takeN m (dropN n t) = takeN m (dropN n u)).
    { intros n m Hm. rewrite E. rewrite <- (takeN_dropN n u) at 1. rewrite <- app_assoc. rewrite dropN_app by (rewrite lenN_takeN; lia).
      rewrite <- (takeN_dropN m (dropN n u)) at 1. rewrite <- app_assoc. apply takeN_app. rewrite lenN_takeN, lenN_dropN. lia. }
    rewrite <- (dropN_0 t) at 1. rewrite !Eq by lia. rewrite dropN_0.
    rewrite <- (takeN_dropN 32 u) at 5. f_equal. rewrite <- (takeN_dropN 32 (dropN 32 u)) at 2. f_equal. rewrite dropN_dropN.
    change (32 + 32) with 64. rewrite <- (takeN_dropN 8 (dropN 64 u)) at 2. f_equal. rewrite dropN_dropN. change (64 + 8) with 72.
    apply takeN_all. rewrite lenN_dropN. lia. }
  exists (takeN 32 (dropN 32 t)), (dropN 80 t).
  split; [rewrite lenN_takeN; lia|]. split; [rewrite lenN_takeN, lenN_dropN; lia|]. split; [rewrite lenN_dropN; lia|].
  rewrite Sp. split; [symmetry; apply takeN_dropN|exact V].
Qed.
Theorem C54_tamper : forall (C : Crypto) priv now counter rand t' lt lc,
  now < 2 ^ 64 -> counter < 2 ^ 64 -> lenN rand = 32 -> let t := createToken C priv now counter rand in
  t' <> t -> checkToken C t' = Ok (edpub C priv, lt, lc) ->
  exists m s, (m, s) <> (takeN 80 t, dropN 80 t) /\ t' = m ++ s /\ edverify C (edpub C priv) m s = true.
Proof.
  intros C priv now counter rand t' lt lc Hn Hc Lr t Ne. unfold checkToken. destruct (lenN t' =? 144) eqn:L; cbn [negb]; [|discriminate].
  destruct (edverify _ _ _ _) eqn:V; [|discriminate]. intros H. assert (P : takeN 32 t' = edpub C priv) by (injection H; auto).
  exists (takeN 80 t'), (dropN 80 t'). split.
  - intros E. apply Ne. rewrite <- (takeN_dropN 80 t'), <- (takeN_dropN 80 t). injection E as E1 E2. rewrite E1, E2. reflexivity.
  - split; [symmetry; apply takeN_dropN|]. rewrite <- P. exact V.
Qed.
Example C54_example : let t := createToken toy [5] 7205 77 (repeat 9 32) in
  checkToken toy t = Ok (edpub toy [5], 2, 77) /\ checkToken toy (takeN 79 t ++ [78] ++ dropN 80 t) = Err "walletauth: bad signature".
Proof. vm_compute. split; reflexivity. Qed.

(* ------------------------------------------------------------------ *)
(* C55: classification of errors. *)
Theorem C55_short_refuted : exists e, isReplay e = Panic /\ e = str "EOF".
Proof. exists (str "EOF"). split; [vm_compute; reflexivity|reflexivity]. Qed.
(* the same abort, caused by the answer of a mailbox server to a fetch *)
Theorem C55_fetch_refuted : exists body, fetchError body = Panic.
Proof. exists (str "ERROR: no mail"). vm_compute. reflexivity. Qed.
(* Partial: errors of at least eleven bytes are classified; missing: shorter errors. *)
Lemma parseInt_decimal k : k < 2 ^ 63 -> parseInt (decimal k) = Some (Z.of_N k).
Proof.
  intros Hk. assert (PD := parse_dec_decimal k ltac:(lia)). unfold parseInt. destruct (decimal k) as [|c r] eqn:D; [discriminate|].
        assert (c <> 45 /\ c <> 43).
        { unfold parse_dec in PD. cbn [fold_left] in PD. destruct ((48 <=? c) && (c <=? 57)) eqn:Ec; [lia|].
          cbn [dec_step] in PD. rewrite Ec in PD. exfalso. clear - PD. induction r as [|x r IH]; [discriminate|]. cbn [fold_left dec_step] in PD. auto. }
        replace (c =? 45) with false by lia. replace (c =? 43) with false by lia. cbn [orb]. rewrite PD.
        replace (k <? 2 ^ 63) with true by lia. reflexivity.
Qed.
Theorem C55_classify_partial : forall e, 11 <= lenN e ->
  (exists c, isReplay e = Ok c) /\
  (forall n, isReplay e = Ok (Some n) -> exists d, e = str "ErrReplay: " ++ d) /\
  (forall k, k < 2 ^ 63 -> e = str "ErrReplay: " ++ decimal k -> isReplay e = Ok (Some k)).
Proof.
  intros e L. unfold isReplay. change (lenN (str "ErrReplay: ")) with 11. cbv zeta. replace (lenN e <? 11) with false by lia.
  destruct (beq (takeN 11 e) (str "ErrReplay: ")) eqn:B.
  - apply beq_spec in B. split; [destruct (parseInt _); eauto|]. split.
    + intros n _. exists (dropN 11 e). rewrite <- B. symmetry. apply takeN_dropN.
    + intros k Hk E. rewrite E. rewrite (dropN_app (str "ErrReplay: ") (decimal k) 11) by reflexivity.
      assert (P := parseInt_decimal k Hk).
      rewrite P. f_equal. f_equal. rewrite Z.mod_small by lia. lia.
  - split; [eauto|]. split; [discriminate|]. intros k _ E. apply beq_neq in B. elim B. rewrite E. apply takeN_app. reflexivity.
Qed.
Example C55_example : isReplay (str "ErrReplay: 1447631234") = Ok (Some 1447631234) /\ isReplay (str "ErrReplay: 12x4") = Ok None /\
  isReplay (str "connection refused") = Ok None.
Proof. vm_compute. repeat split. Qed.

(* ------------------------------------------------------------------ *)
(* C80: the retry loop of the account calls. *)
Theorem C80_bounded : forall S (ask : S -> N -> answer * S) now s cs r s',
  mixCall ask now s = (cs, r, s') -> 1 <= lenN cs <= 4.
Proof.
  intros S ask now s cs r s'. unfold mixCall.
  assert (G : forall i last s cs r s', callLoop ask i last s = (cs, r, s') -> 1 <= lenN cs <= 1 + N.of_nat i).
  { clear. induction i as [|i IH]; intros last s cs r s' H; cbn [callLoop] in H; destruct (ask s _) as [a s1]; destruct a as [|n|].
    1-3: assert (cs = [(last + 1) mod 2 ^ 64]) as -> by (injection H; auto); rewrite lenN_cons, (lenN_nil N); lia.
    - assert (cs = [(last + 1) mod 2 ^ 64]) as -> by (injection H; auto); rewrite lenN_cons, (lenN_nil N); lia.
    - destruct (callLoop ask i n s1) as [[cs1 r1] s2] eqn:E. assert (cs = (last + 1) mod 2 ^ 64 :: cs1) as -> by (injection H; auto).
      apply IH in E. rewrite lenN_cons. lia.
    - assert (cs = [(last + 1) mod 2 ^ 64]) as -> by (injection H; auto); rewrite lenN_cons, (lenN_nil N); lia. }
  intros H. apply G in H. lia.
Qed.
(* A server that remembers the last counter and refuses counters that are not larger, as seen by one client while
   others raise the counter by the given amounts before each request. *)
Definition counterServer (s : N * list N) (c : N) : answer * (N * list N) :=
  let (L, ks) := s in
  let (k, ks') := match ks with [] => (0, []) | k :: r => (k, r) end in
  let L' := L + k in
  if L' <? c then (AOk, (c, ks')) else (AReplay L', (L', ks')).
(* The call fails only if somebody else raised the counter before each of the three retries. *)
Theorem C80_recovers : forall now L k0 k1 k2 k3 cs s', now + 1 < 2 ^ 64 -> L + k0 + k1 + k2 + k3 + 1 < 2 ^ 64 ->
  mixCall counterServer now (L, [k0; k1; k2; k3]) = (cs, false, s') -> 0 < k1 /\ 0 < k2 /\ 0 < k3.
Proof.
  intros now L k0 k1 k2 k3 cs s' Hn HL. unfold mixCall.
  assert (G : forall i last L0 k ks r, L0 + k + 1 < 2 ^ 64 -> last + 1 < 2 ^ 64 -> callLoop counterServer (Datatypes.S i) last (L0, k :: ks) = r ->
    snd (fst r) = false -> L0 + k >= last + 1 /\ snd (fst (callLoop counterServer i (L0 + k) (L0 + k, ks))) = false).
  { clear. intros i last L0 k ks r H0 H1 H2 H3. cbn [callLoop counterServer] in H2. rewrite (N.mod_small (last + 1)) in H2 by lia.
    destruct (L0 + k <? last + 1) eqn:E; [subst r; discriminate|]. split; [lia|]. destruct (callLoop counterServer i (L0 + k) (L0 + k, ks)) as [[x y] z].
    subst r. exact H3. }
  intros H. apply G in H; [|lia|lia|reflexivity]. destruct H as [_ H]. 
  destruct (G 1%nat (L + k0) (L + k0) k1 [k2; k3] _ ltac:(lia) ltac:(lia) eq_refl H) as [H1 H']. clear H.
  destruct (G 0%nat (L + k0 + k1) (L + k0 + k1) k2 [k3] _ ltac:(lia) ltac:(lia) eq_refl H') as [H2 H]. clear H'.
  cbn [callLoop counterServer] in H. rewrite N.mod_small in H by lia.
  destruct (L + k0 + k1 + k2 + k3 <? L + k0 + k1 + k2 + 1) eqn:E; [discriminate|]. lia.
Qed.
Theorem C80_undisturbed : forall now L, now + 1 < 2 ^ 64 -> L + 1 < 2 ^ 64 ->
  exists cs s', mixCall counterServer now (L, []) = (cs, true, s') /\ lenN cs <= 2.
Proof.
  intros now L Hn HL. unfold mixCall. cbn [callLoop counterServer]. rewrite !N.mod_small by lia. rewrite !N.add_0_r.
  destruct (L <? now + 1); [do 2 eexists; split; [reflexivity|rewrite lenN_cons, (lenN_nil N); lia]|].
  rewrite !N.mod_small by lia. cbn [counterServer]. rewrite N.add_0_r.
  replace (L <? L + 1) with true by lia. do 2 eexists. split; [reflexivity|]. rewrite !lenN_cons, (lenN_nil N). lia.
Qed.
Example C80_example : mixCall counterServer 5 (9, [0; 3; 0; 0]) = ([6; 10; 13], true, (13, [0])) /\
  mixCall counterServer 5 (9, [0; 3; 1; 1]) = ([6; 10; 13; 14], false, (14, [])).
Proof. vm_compute. split; reflexivity. Qed.

(* C83: the wallet client.  Full statement: after a failed call, later calls succeed again once the server answers.  It fails:
   the token of the failed call is kept, and once the server has seen its counter every later call is refused. *)
Fixpoint walletCalls (n : nat) (w : wclient) (s : N * list N) : list bool :=
  match n with
  | O => []
  | S n' => let '(_, r, w', s') := walletCall counterServer w s in r :: walletCalls n' w' s'
  end.
Lemma walletCall_stuck c t L : t <= L -> forall cs r w' s', walletCall counterServer (mkWC c (Some t)) (L, []) = (cs, r, w', s') ->
  r = false /\ wcToken w' = Some t /\ s' = (L, []).
Proof.
  intros H. unfold walletCall. cbn [wcCounter].
  assert (G : forall i last c cs r w' s', walletLoop counterServer i last (mkWC c (Some t)) (L, []) = (cs, r, w', s') ->
    r = false /\ wcToken w' = Some t /\ s' = (L, [])); [|intros cs r w' s'; apply G].
  clear c. induction i as [|i IH]; intros last c cs r w' s' E; cbn [walletLoop counterServer wcToken wcCounter] in E; rewrite N.add_0_r in E;
    replace (L <? t) with false in E by lia.
  - assert (r = false) by (injection E; auto). assert (w' = mkWC L (Some t)) as -> by (injection E; auto). assert (s' = (L, [])) by (injection E; auto). auto.
  - destruct (walletLoop counterServer i L (mkWC L (Some t)) (L, [])) as [[[cs1 r1] w1] s1] eqn:E1.
    assert (r = r1) as -> by (injection E; auto). assert (w' = w1) as -> by (injection E; auto). assert (s' = s1) as -> by (injection E; auto).
    exact (IH _ _ _ _ _ _ E1).
Qed.
Theorem C83_stuck_refuted : exists c t L, forall n, walletCalls n (mkWC c (Some t)) (L, []) = repeat false n.
Proof.
  exists 0, 1, 1. intros n. generalize 0 as c. induction n as [|n IH]; intros c; [reflexivity|]. cbn [walletCalls repeat].
  destruct (walletCall counterServer (mkWC c (Some 1)) (1, [])) as [[[cs r] w'] s'] eqn:E.
  destruct (walletCall_stuck c 1 1 ltac:(lia) _ _ _ _ E) as (-> & Hw & ->). f_equal. destruct w' as [c' t']. cbn in Hw. subst t'. apply IH.
Qed.
(* That state is reached from a fresh client: the first call fails in transit, the second is answered. *)
Definition flaky (s : N * bool) (c : N) : answer * (N * bool) :=
  let (L, up) := s in
  if up then (if L <? c then (AOk, (c, true)) else (AReplay L, (L, true))) else (AErr, (L, true)).
Theorem C83_reached_refuted : exists cs1 cs2 w1 w2 s1 s2, walletCall flaky (mkWC 0 None) (0, false) = (cs1, false, w1, s1) /\
  walletCall flaky w1 s1 = (cs2, true, w2, s2) /\ w2 = mkWC 0 (Some 1) /\ s2 = (1, true).
Proof. do 6 eexists. vm_compute. repeat split. Qed.
(* Partial: while no token is kept the client recovers from a stale counter with one retry; missing: any state with a kept token. *)
Theorem C83_fresh_partial : forall c L, c + 1 < 2 ^ 64 -> L + 1 < 2 ^ 64 ->
  exists cs w' s', walletCall counterServer (mkWC c None) (L, []) = (cs, true, w', s') /\ lenN cs <= 2 /\ wcToken w' = None.
Proof.
  intros c L Hc HL. unfold walletCall. cbn [walletLoop counterServer wcToken wcCounter]. rewrite !N.mod_small by lia. rewrite !N.add_0_r.
  destruct (L <? c + 1); [do 3 eexists; split; [reflexivity|split; [rewrite lenN_cons, (lenN_nil N); lia|reflexivity]]|].
  rewrite !N.mod_small by lia. cbn [counterServer]. rewrite N.add_0_r.
  replace (L <? L + 1) with true by lia. do 3 eexists. split; [reflexivity|]. split; [rewrite !lenN_cons, (lenN_nil N); lia|reflexivity].
Qed.
Example C83_example : walletCall counterServer (mkWC 3 None) (9, []) = ([4; 10], true, mkWC 9 None, (10, [])).
Proof. vm_compute. reflexivity. Qed.

(* ------------------------------------------------------------------ *)
(* C71: the server that is paid. *)
Theorem C71_wrong_server_refuted : exists server, server <> [] /\ payAccountURL server <> accountURL server.
Proof. exists (str "accounts1.mute.one"). split; vm_compute; discriminate. Qed.
(* Partial: the request always goes to the default account server, whatever server is given; so the property holds for that one only. *)
Theorem C71_default_partial : forall server, payAccountURL server = accountURL server <-> server = DefaultAccountServer.
Proof.
  intros server. unfold payAccountURL. cbv zeta. unfold accountURL. split; [|intros ->; reflexivity].
  intros E. apply app_inv_head in E. apply app_inv_tail in E. symmetry. exact E.
Qed.

(* C81: a malformed message list.  Full statement: the answer lists exactly the messages of the server, or an error is reported. *)
Theorem C81_swallowed_refuted : exists l m, listMessages l = Ok m /\ lenN m < lenN l.
Proof.
  exists [LObj (Some 1%Z) (Some 2%Z) (Some 3%Z) (Some (str "0a")) (Some (str "0b")); LObj (Some 1%Z) (Some 2%Z) (Some 3%Z) (Some (str "0a")) (Some (str "xy"));
          LObj (Some 1%Z) (Some 2%Z) (Some 3%Z) (Some (str "0a")) (Some (str "0c"))]. eexists. split; [vm_compute; reflexivity|vm_compute; reflexivity].
Qed.
Theorem C81_panic_refuted : exists l, listMessages l = Panic.
Proof. exists [LOther]. reflexivity. Qed.
(* Partial: what is returned is the translation of a prefix of the list, all of it if every element is well formed. *)
Definition elemMeta (e : listElem) : option msgMeta :=
  match e with
  | LObj (Some rt) (Some rtn) (Some rd) (Some uk) (Some mi) =>
    match hexdec uk, hexdec mi with Some k, Some m => Some (mkMeta m rt rtn rd (pad32 k)) | _, _ => None end
  | _ => None
  end.
Theorem C81_prefix_partial : forall l m, listMessages l = Ok m ->
  exists a b, l = a ++ b /\ map elemMeta a = map Some m /\ ((forall e, In e l -> elemMeta e <> None) -> b = []).
Proof.
  intros l m. unfold listMessages. destruct (listLoop l) as [[m' e]| |] eqn:E; cbn [rbind]; try discriminate.
  destruct e; [discriminate|]. intros H. assert (m' = m) as -> by (injection H; auto). clear H.
  revert m E. induction l as [|x l IH]; intros m E; cbn [listLoop] in E.
  - assert (m = []) as -> by (injection E; auto). exists [], []. auto.
  - destruct x as [|rt rtn rd uk mi]; [discriminate|].
    assert (Stop : forall mm, Ok (@nil msgMeta, false) = Ok (mm, false) -> elemMeta (LObj rt rtn rd uk mi) = None ->
      exists a b, LObj rt rtn rd uk mi :: l = a ++ b /\ map elemMeta a = map Some mm /\ ((forall e, In e (LObj rt rtn rd uk mi :: l) -> elemMeta e <> None) -> b = [])).
    { intros mm Hm Hn. assert (mm = []) as -> by (injection Hm; auto). exists [], (LObj rt rtn rd uk mi :: l). split; [reflexivity|]. split; [reflexivity|].
      intros All. elim (All (LObj rt rtn rd uk mi)); [left; reflexivity|exact Hn]. }
    destruct rt as [rt|]; [|discriminate]. destruct rtn as [rtn|]; [|discriminate]. destruct rd as [rd|]; [|discriminate]. destruct uk as [uk|]; [|discriminate].
    destruct (hexdec uk) as [k|] eqn:Hk; [|apply Stop; [exact E|]; cbn [elemMeta]; rewrite Hk; destruct mi; reflexivity].
    destruct mi as [mi|]; [|apply Stop; [exact E|reflexivity]].
    destruct (hexdec mi) as [i|] eqn:Hi; [|apply Stop; [exact E|]; cbn [elemMeta]; rewrite Hk, Hi; reflexivity].
    destruct (listLoop l) as [[t e]| |] eqn:L; cbn [rbind] in E; try discriminate.
    assert (m = mkMeta i rt rtn rd (pad32 k) :: t) as -> by (injection E; auto). assert (e = false) as -> by (injection E; auto).
    destruct (IH t eq_refl) as (a & b & -> & Hm & Hb).
    exists (LObj (Some rt) (Some rtn) (Some rd) (Some uk) (Some mi) :: a), b. split; [reflexivity|]. split.
    + cbn [map]. rewrite Hm. f_equal. cbn [elemMeta]. rewrite Hk, Hi. reflexivity.
    + intros All. apply Hb. intros e He. apply All. right. exact He.
Qed.

(* C82: unverified mix keys. *)
Theorem C82_unverified_refuted : exists (M : MixCrypto) s tpl a ad, stVerify M s = false /\ tpMixes tpl = getMixKeys s /\
  newAddress M tpl (str "box@") [7] 1000 0 [6] (repeat 1 32) = Ok a /\ parseAddress 1000 a = Ok ad /\ In (naMixPub ad) (map maPub (stAddrs s)).
Proof.
  exists toyMix, (mkStmt [mkMA (dhpub toyMix [5]) 2000 (str "evil@mute.one") []] [] []), (mkTpl [1] 0 [mkMA (dhpub toyMix [5]) 2000 (str "evil@mute.one") []] 1500 false 1 2).
  do 2 eexists. split; [vm_compute; reflexivity|]. split; [reflexivity|]. split; [vm_compute; reflexivity|]. split; [vm_compute; reflexivity|]. vm_compute. auto.
Qed.
(* Partial: AddStatement, which the client does not use here, adds only unexpired addresses of verified statements. *)
Theorem C82_addStatement_partial : forall (M : MixCrypto) now adl ss a,
  In a (fold_left (addStatement M now) ss adl) -> In a adl \/ exists s, In s ss /\ stVerify M s = true /\ In a (stAddrs s) /\ (now < maExpire a)%Z.
Proof.
  intros M now adl ss a. revert adl. induction ss as [|s ss IH]; intros adl H; [auto|]. cbn [fold_left] in H.
  destruct (IH _ H) as [I|(s' & I & V & A & X)]; [|right; exists s'; split; [right; exact I|auto]].
  unfold addStatement in I. destruct (stVerify M s) eqn:V; [|auto]. unfold adlAppend in I. apply in_app_iff in I. destruct I as [I|I]; [auto|].
  apply filter_In in I. right. exists s. split; [left; reflexivity|]. split; [exact V|]. split; [apply I|]. destruct I. lia.
Qed.
Example C82_example : fold_left (addStatement toyMix 10) [mkStatement toyMix [mkMA [1] 20 [] []; mkMA [2] 10 [] []] [4]; mkStmt [mkMA [3] 20 [] []] [] []] [] = [mkMA [1] 20 [] []].
Proof. vm_compute. reflexivity. Qed.

(* ------------------------------------------------------------------ *)
(* C49: delivery. *)
(* Upper bound of the encoding. *)
Lemma derLen_len n : n < 2 ^ 31 -> lenN (derLen n) <= 5.
Proof.
  intros H. unfold derLen. destruct (n <? 128); [rewrite lenN_cons, (lenN_nil N); lia|]. cbv zeta. rewrite lenN_cons, lenN_be.
  destruct (nbytesF_spec n H) as (K & _). lia.
Qed.
Fixpoint dvSum (l : list dv) : N := match l with [] => 0 | v :: r => dvSize v + 14 + dvSum r end.
Lemma encFields_upper l : (forall z, In (DInt z) l -> int64ok z) -> dvSum l < 2 ^ 31 -> forall e, encFields l = Some e -> lenN e <= dvSum l.
Proof.
  induction l as [|v l IH]; intros Hi Hs e H; cbn [encFields dvSum] in *; [assert (e = []) as -> by (injection H; auto); rewrite (lenN_nil N); lia|].
  destruct (encField v) as [x|] eqn:A; [|discriminate]. destruct (encFields l) as [y|] eqn:B; [|discriminate].
  assert (e = x ++ y) as -> by (injection H; auto). rewrite lenN_app. specialize (IH ltac:(intros z I; apply Hi; right; exact I) ltac:(lia) y eq_refl).
  enough (lenN x <= dvSize v + 14) by lia.
  assert (T : forall g b, lenN b < 2 ^ 31 -> lenN (tlv g b) <= lenN b + 6).
  { intros g b Hb. unfold tlv. rewrite lenN_cons, lenN_app. generalize (derLen_len _ Hb). lia. }
  destruct v as [z|b|b|s]; cbn [encField dvSize] in *.
  - assert (x = tlv 2 (intBytes z)) as -> by (injection A; auto). assert (I := intBytes_len z (Hi z (or_introl eq_refl))).
    generalize (T 2 (intBytes z) ltac:(lia)). lia.
  - assert (x = tlv 1 [if b then 255 else 0]) as -> by (injection A; auto). assert (L : lenN [if b then 255 else 0] = 1) by reflexivity.
    generalize (T 1 [if b then 255 else 0] ltac:(lia)). lia.
  - assert (x = tlv 4 b) as -> by (injection A; auto). generalize (T 4 b ltac:(lia)). lia.
  - destruct (forallb isPrintable s); [|destruct (utf8ok s); [|discriminate]].
    + assert (x = tlv 19 s) as -> by (injection A; auto). generalize (T 19 s ltac:(lia)). lia.
    + assert (x = tlv 12 s) as -> by (injection A; auto). generalize (T 12 s ltac:(lia)). lia.
Qed.
(* Envelopes and server answers of realistic size: half a gigabyte. *)
Definition moSmall (m : msgOut) : Prop := int64ok (moPort m) /\
  lenN (octs (moMsg m)) + lenN (moTo m) + lenN (moFrom m) + lenN (octs (moRevoke m)) + lenN (moHost m) + lenN (octs (moCA m)) < 2 ^ 29 /\
  lenN (octs (moErr m)) < 2 ^ 29.
Definition bnd (o : option bytes) : Prop := lenN (octs o) < 2 ^ 29.
Definition envSmall (e : smtpEnv) : Prop :=
  bnd (seDial e) /\ bnd (seStart e) /\ bnd (seMail e) /\ bnd (seRcpt e) /\ bnd (seData e) /\ bnd (seWrite e) /\ bnd (seClose e) /\ bnd (seQuit e).
(* what reading a stored envelope back gives *)
Definition normalErr (o : option bytes) : option bytes :=
  match o with Some e => if beq e [] || beq e (str "nil") then None else Some e | None => None end.
Lemma reload_cases m : moSmall m ->
  reload m = mkMO (Some (octs (moMsg m))) (moTo m) (moFrom m) (Some (octs (moRevoke m))) (moPort m) (moHost m) (Some (octs (moCA m))) (normalErr (moErr m)) (moResend m) \/
  derMarshal (moFields m) = None /\ reload m = mkMO None [] [] None 0 [] None (Some (str "asn1 error")) false.
Proof.
  intros (Hp & Hs & He). unfold reload, moMarshal. destruct (derMarshal (moFields m)) as [d|] eqn:E; [left|right; split; [reflexivity|vm_compute; reflexivity]].
  assert (U : derUnmarshal moTypes (d ++ []) = Ok (moFields m)).
  { revert E. assert (X : exists et : bytes, moFields m = [DOct (octs (moMsg m)); DStr (moTo m); DStr (moFrom m); DOct (octs (moRevoke m)); DInt (moPort m); DStr (moHost m);
      DOct (octs (moCA m)); DStr et; DBool (moResend m)] /\ lenN et < 2 ^ 29 + 4).
    { exists (match moErr m with Some e => e | None => str "nil" end). split; [reflexivity|]. destruct (moErr m); cbn [octs] in He; [lia|vm_compute; reflexivity]. }
    destruct X as (et & -> & Ee). intros E. apply derUnmarshal_marshal; [|exact E|].
    - unfold moTypes. repeat first [apply Forall2_nil | apply Forall2_cons; [cbn [dvOk]; first [exact Hp | exact I | lia]|]].
    - unfold derMarshal in E. destruct (encFields _) as [b|] eqn:B; [|discriminate]. assert (d = tlv 48 b) as -> by (injection E; auto).
      assert (Ub : lenN b <= 2 ^ 29 + 2 ^ 29 + 150).
      { apply encFields_upper in B; cbn [dvSum dvSize] in *; [lia| |lia].
        intros z I. cbn [In] in I. repeat (destruct I as [I|I]; [try discriminate|]); [|contradiction].
        assert (z = moPort m) as -> by (injection I; auto). exact Hp. }
      unfold tlv. rewrite lenN_cons, lenN_app. generalize (derLen_len (lenN b) ltac:(lia)). lia. }
  rewrite app_nil_r in U. unfold moUnmarshal. rewrite U. unfold moFields. destruct (moErr m) as [e|]; reflexivity.
Qed.
Lemma reload_resend m : moSmall m -> moResend m = false -> moResend (reload m) = false.
Proof. intros S H. destruct (reload_cases m S) as [->|[_ ->]]; [exact H|reflexivity]. Qed.
Lemma reload_small m : moSmall m -> moSmall (reload m).
Proof.
  intros S. destruct (reload_cases m S) as [->|[_ ->]].
  - destruct S as (P & Q & R). split; [exact P|]. split; [exact Q|]. cbn [moErr]. unfold normalErr. destruct (moErr m) as [e|]; cbn [octs] in *; [destruct (_ || _); [reflexivity|exact R]|reflexivity].
  - split; [cbn [moPort]; unfold int64ok; lia|]. split; reflexivity.
Qed.
Lemma smtpSteps_last l k : forall x t b, smtpSteps l k = (Some (x, t), b) -> k = (Some (x, t), b) \/ In (Some t) l.
Proof.
  induction l as [|o l IH]; intros x t b H; cbn [smtpSteps] in H; [auto|]. destruct o as [u|].
  - right. left. assert (u = t) by (injection H; auto). subst; reflexivity.
  - destruct (IH _ _ _ H); [auto|right; right; assumption].
Qed.
Lemma sendMail_last ca h e x t b : envSmall e -> sendMail ca h e = (Some (x, t), b) -> lenN t < 2 ^ 29.
Proof.
  intros (H1 & H2 & H3 & H4 & H5 & H6 & H7 & H8) H.
  assert (T : forall x t b, smtpSteps [seMail e; seRcpt e; seData e; seWrite e; seClose e] (match seQuit e with Some t => Some (parseError t, t) | None => None end, true) = (Some (x, t), b) -> lenN t < 2 ^ 29).
  { clear H x t b. intros x t b H. apply smtpSteps_last in H. destruct H as [H|H].
    - destruct (seQuit e) as [q|]; [|discriminate]. assert (q = t) as -> by (injection H; auto). exact H8.
    - cbn [In] in H. repeat (destruct H as [H|H]; [match type of H with ?o = _ => assert (B : bnd o) by assumption; rewrite H in B; exact B end|]). contradiction. }
  unfold sendMail in H. destruct (match h with [] => _ | _ => _ end) eqn:Hh; [assert (t = ErrNoHost) as -> by (injection H; auto); reflexivity|].
  destruct (seDial e) as [dl|]; [assert (t = dl) as -> by (injection H; auto); exact H1|].
  destruct (seTLS e).
  - destruct (match ca with Some c => _ | None => _ end); [assert (t = ErrNoTLS) as -> by (injection H; auto); reflexivity|].
    apply smtpSteps_last in H. destruct H as [H|H]; [eapply T; exact H|]. cbn [In] in H. destruct H as [H|[]]. rewrite H in H2. exact H2.
  - destruct ca; [assert (t = ErrNoTLS) as -> by (injection H; auto); reflexivity|eapply T; exact H].
Qed.
Lemma deliver_small m e : moSmall m -> envSmall e -> moSmall (dlState (deliver m e)).
Proof.
  intros S E. unfold deliver. destruct (moResend m).
  - destruct (sendMail (moCA m) (moHost m) e) as [[[x t]|] b] eqn:M.
    + assert (Lt := sendMail_last _ _ _ _ _ _ E M). destruct S as (P & Q & R).
      destruct x as [| |r]; cbn [dlState]; (split; [exact P|split; [exact Q|cbn [moErr octs errText]]]).
      * exact Lt.
      * reflexivity.
      * assert (r = t) as ->; [|exact Lt]. clear - M.
        assert (PE : forall u v, parseError u = SRaw v -> v = u).
        { intros u v. unfold parseError. cbv zeta. destruct (index_byte 32 (trim u)) as [pos|]; [|intros H; injection H; auto].
          destruct (0 <? pos); [|intros H; injection H; auto]. destruct (parseInt _) as [c|]; [destruct (500 <=? c)%Z; discriminate|intros H; injection H; auto]. }
        assert (T : forall l k b, (forall b, k = (Some (SRaw r, t), b) -> r = t) -> smtpSteps l k = (Some (SRaw r, t), b) -> r = t).
        { induction l as [|o l IH]; intros k b' K H; cbn [smtpSteps] in H; [exact (K _ H)|]. destruct o as [u|]; [|exact (IH k b' K H)].
          assert (t = u) as -> by (injection H; auto). apply PE. injection H; auto. }
        assert (T0 : forall b, smtpSteps [seMail e; seRcpt e; seData e; seWrite e; seClose e] (match seQuit e with Some t => Some (parseError t, t) | None => None end, true) = (Some (SRaw r, t), b) -> r = t).
        { intros b' H. eapply T; [|exact H]. intros b'' K. destruct (seQuit e) as [q|]; [|discriminate].
          assert (t = q) as -> by (injection K; auto). apply PE. injection K; auto. }
        unfold sendMail in M. destruct (match moHost m with [] => _ | _ => _ end); [discriminate|]. destruct (seDial e); [discriminate|]. destruct (seTLS e).
        -- destruct (match moCA m with Some c => _ | None => _ end); [discriminate|]. eapply T; [|exact M]. intros b' K. eapply T0; exact K.
        -- destruct (moCA m); [discriminate|]. eapply T0; exact M.
    + cbn [dlState]. destruct S as (P & Q & R). split; [cbn [moPort]; unfold int64ok; lia|]. cbn [moMsg moTo moFrom moRevoke moHost moCA moErr octs]. rewrite !(lenN_nil N). split; lia.
  - destruct (moMsg m); exact S.
Qed.

(* Full statement: each message is handed to the network until it is accepted or refused for good, and then never again,
   whatever is stored and read back in between.  Partial: what Deliver reports as done is never sent again; what is missing
   is what Deliver does not notice (C49_quit_refuted) and what storing loses (C49_cacert_refuted, C49_error_text_refuted). *)
Definition opSmall (o : moOp) : Prop := match o with ODeliver e => envSmall e | OReload => True end.
Lemma moRun_quiet ops : Forall opSmall ops -> forall m, moSmall m -> moResend m = false -> Forall (fun d => dlTried d = false /\ dlTaken d = false) (moRun ops m).
Proof.
  induction 1 as [|o ops Ho F IH]; intros m S R; [constructor|]. cbn [moRun]. destruct o as [e|].
  - assert (D : dlTried (deliver m e) = false /\ dlTaken (deliver m e) = false /\ dlState (deliver m e) = m) by (unfold deliver; rewrite R; destruct (moMsg m); auto).
    destruct D as (D1 & D2 & D3). constructor; [auto|]. rewrite D3. apply IH; assumption.
  - apply IH; [apply reload_small, S|apply reload_resend; assumption].
Qed.
Theorem C49_settled_partial : forall ops m pre d post, Forall opSmall ops -> moSmall m -> moRun ops m = pre ++ d :: post ->
  dlTried d = true -> moResend (dlState d) = false -> Forall (fun d' => dlTried d' = false /\ dlTaken d' = false) post.
Proof.
  intros ops m pre d post F. revert m pre. induction F as [|o ops Ho F IH]; intros m pre S R T Q; cbn [moRun] in R; [destruct pre; discriminate|].
  destruct o as [e|].
  - destruct pre as [|p pre]; cbn [app] in R.
    + assert (d = deliver m e) as -> by (injection R; auto). assert (post = moRun ops (dlState (deliver m e))) as -> by (injection R; auto).
      apply moRun_quiet; [exact F|apply deliver_small; assumption|exact Q].
    + assert (R' : moRun ops (dlState (deliver m e)) = pre ++ d :: post) by (injection R; auto).
      eapply IH; [apply deliver_small; [exact S|exact Ho]|exact R'|exact T|exact Q].
  - eapply IH; [apply reload_small; exact S|exact R|exact T|exact Q].
Qed.
(* Every attempt either settles the message or leaves everything needed to try again. *)
Theorem C49_retry : forall m e, moResend m = true -> let d := deliver m e in dlTried d = true /\
  (dlErr d = None /\ dlTaken d = true /\ moResend (dlState d) = false \/
   exists t, dlErr d = Some t /\ moErr (dlState d) = Some t /\
     moMsg (dlState d) = moMsg m /\ moTo (dlState d) = moTo m /\ moFrom (dlState d) = moFrom m /\ moRevoke (dlState d) = moRevoke m /\
     moPort (dlState d) = moPort m /\ moHost (dlState d) = moHost m /\ moCA (dlState d) = moCA m).
Proof.
  intros m e R. unfold deliver. rewrite R. destruct (sendMail (moCA m) (moHost m) e) as [[[x t]|] b] eqn:M; cbv zeta.
  - destruct x as [| |r]; (split; [reflexivity|]); right; cbn [dlErr dlState moErr moMsg moTo moFrom moRevoke moPort moHost moCA]; eexists; repeat split.
  - cbn [dlTried dlErr dlTaken dlState moResend]. split; [reflexivity|]. left. split; [reflexivity|]. split; [|reflexivity].
    assert (T : forall l k b, (forall b, k = (None, b) -> b = true) -> smtpSteps l k = (None, b) -> b = true).
    { induction l as [|o l IH]; intros k b' K H; cbn [smtpSteps] in H; [exact (K _ H)|]. destruct o as [u|]; [discriminate|exact (IH k b' K H)]. }
    assert (T0 : forall b, smtpSteps [seMail e; seRcpt e; seData e; seWrite e; seClose e] (match seQuit e with Some t => Some (parseError t, t) | None => None end, true) = (None, b) -> b = true).
    { intros b' H. eapply T; [|exact H]. intros b'' K. injection K; auto. }
    unfold sendMail in M. destruct (match moHost m with [] => _ | _ => _ end); [discriminate|]. destruct (seDial e); [discriminate|]. destruct (seTLS e).
    + destruct (match moCA m with Some c => _ | None => _ end); [discriminate|]. eapply T; [|exact M]. intros b' K. eapply T0; exact K.
    + destruct (moCA m); [discriminate|]. eapply T0; exact M.
Qed.
(* the outcome by SMTP reply: a code of 500 or more at any step settles the message, a lower code is tried again *)
Theorem C49_codes : forall code rest, 100 <= code < 1000 -> trim (decimal code ++ 32 :: rest) = decimal code ++ 32 :: rest ->
  parseError (decimal code ++ 32 :: rest) = if 500 <=? code then SFinal else SRetry.
Proof.
  intros code rest Hc Tr.
  assert (NI : ~ In 32 (decimal code)).
  { assert (P := parse_dec_decimal code ltac:(lia)). unfold parse_dec in P. destruct (decimal code) as [|c0 l0]; [intros []|]. revert P.
    generalize (c0 :: l0) as l. generalize (Some 0) as acc. clear. intros acc l. revert acc. induction l as [|c l IH]; intros acc H; [intros []|].
    cbn [fold_left] in H. intros [->|I]; [|exact (IH _ H I)].
    assert (Z : dec_step acc 32 = None) by (destruct acc; reflexivity). rewrite Z in H. clear - H. induction l as [|c l IH]; [discriminate|]. exact (IH H). }
  unfold parseError. cbv zeta. rewrite Tr.
  assert (IB : forall l, ~ In 32 l -> index_byte 32 (l ++ 32 :: rest) = Some (lenN l)).
  { clear. induction l as [|c l IH]; intros NI; [reflexivity|]. cbn [app index_byte]. destruct (N.eqb_spec c 32) as [->|Ne]; [elim NI; left; reflexivity|].
    rewrite IH by (intros I; apply NI; right; exact I). rewrite lenN_cons. f_equal. lia. }
  rewrite (IB _ NI). assert (Ne : decimal code <> []). { intros E. assert (P := parse_dec_decimal code ltac:(lia)). rewrite E in P. discriminate. }
  replace (0 <? lenN (decimal code)) with true by (destruct (decimal code); [congruence|rewrite lenN_cons; lia]).
  rewrite (takeN_app (decimal code) _ (lenN (decimal code)) eq_refl), parseInt_decimal by lia.
  destruct (N.leb_spec 500 code); [replace (500 <=? Z.of_N code)%Z with true by lia|replace (500 <=? Z.of_N code)%Z with false by lia]; reflexivity.
Qed.
(* Stored envelopes. *)
Theorem C49_reload_partial : forall m, moSmall m -> derMarshal (moFields m) <> None ->
  moMsg m <> None -> moRevoke m <> None -> moCA m <> None -> moErr m <> Some [] -> moErr m <> Some (str "nil") -> reload m = m.
Proof.
  intros m S D H1 H2 H3 H4 H5. destruct (reload_cases m S) as [->|[E _]]; [|congruence]. destruct m as [a b c d e f g h i]. cbn [moMsg moTo moFrom moRevoke moPort moHost moCA moErr moResend] in *.
  destruct a; [|congruence]. destruct d; [|congruence]. destruct g; [|congruence]. cbn [octs].
  assert (normalErr h = h) as ->; [|reflexivity]. unfold normalErr. destruct h as [h|]; [|reflexivity].
  replace (beq h []) with false by (symmetry; apply beq_neq; intros ->; apply H4; reflexivity). replace (beq h (str "nil")) with false by (symmetry; apply beq_neq; intros ->; apply H5; reflexivity). reflexivity.
Qed.
Definition okEnv : smtpEnv := mkEnv true None true (fun c => match c with [] => false | _ => true end) None None None None None None None.
(* The server took the message and then failed on QUIT: Deliver reports failure, and the next attempt delivers it again. *)
Theorem C49_quit_refuted : exists m e1 e2, map dlTaken (moRun [ODeliver e1; ODeliver e2] m) = [true; true].
Proof.
  exists (createOut [1] (str "a@b") [] 25 (str "mx") (Some [1])), (mkEnv true None true (fun _ => true) None None None None None None (Some (str "EOF"))), okEnv. vm_compute. reflexivity.
Qed.
(* Without a CA certificate: delivered at once, but refused for good once it has been stored and read back. *)
Theorem C49_cacert_refuted : exists m, map dlTaken (moRun [ODeliver okEnv] m) = [true] /\
  moRun [OReload; ODeliver okEnv; ODeliver okEnv] m <> [] /\ Forall (fun d => dlTaken d = false /\ moResend (dlState d) = false) (moRun [OReload; ODeliver okEnv; ODeliver okEnv] m).
Proof.
  exists (createOut [1] (str "a@b") [] 25 (str "mx") None). split; [vm_compute; reflexivity|]. split; [vm_compute; discriminate|]. vm_compute. repeat constructor.
Qed.
(* A temporary failure whose text is not valid UTF-8 loses the message when it is stored. *)
Theorem C49_error_text_refuted : exists m e, let d := deliver m e in moResend (dlState d) = true /\ moMsg (dlState d) = Some [1] /\
  moMsg (reload (dlState d)) = None /\ moResend (reload (dlState d)) = false.
Proof.
  exists (createOut [1] (str "a@b") [] 25 (str "mx") (Some [1])), (mkEnv true None true (fun _ => true) None (Some [255]) None None None None None). vm_compute. repeat split.
Qed.
Example C49_example : let m := createOut [1;2] (str "a@b") [7] 25 (str "mx") (Some [1]) in
  let busy := mkEnv true None true (fun _ => true) None None (Some (str "451 try later")) None None None None in
  let full := mkEnv true None true (fun _ => true) None None (Some (str "550 no such user")) None None None None in
  map (fun d => (dlTried d, dlTaken d, moResend (dlState d))) (moRun [ODeliver busy; OReload; ODeliver okEnv; ODeliver okEnv] m) =
    [(true, false, true); (true, true, false); (false, false, false)] /\
  map (fun d => (dlTried d, dlTaken d, moResend (dlState d))) (moRun [ODeliver full; OReload; ODeliver okEnv] m) = [(true, false, false); (false, false, false)] /\
  reload m = m /\ moSmall m /\ envSmall busy.
Proof. vm_compute. repeat split; discriminate. Qed.

Print Assumptions C49_settled_partial. Print Assumptions C49_retry. Print Assumptions C49_codes. Print Assumptions C49_reload_partial.
Print Assumptions C49_quit_refuted. Print Assumptions C49_cacert_refuted. Print Assumptions C49_error_text_refuted.
Print Assumptions C54_codec. Print Assumptions C54_sound. Print Assumptions C54_tamper.
Print Assumptions C55_short_refuted. Print Assumptions C55_fetch_refuted. Print Assumptions C55_classify_partial.
Print Assumptions C71_wrong_server_refuted. Print Assumptions C71_default_partial.
Print Assumptions C80_bounded. Print Assumptions C80_recovers. Print Assumptions C80_undisturbed.
Print Assumptions C81_swallowed_refuted. Print Assumptions C81_panic_refuted. Print Assumptions C81_prefix_partial.
Print Assumptions C82_unverified_refuted. Print Assumptions C82_addStatement_partial.
Print Assumptions C83_stuck_refuted. Print Assumptions C83_reached_refuted. Print Assumptions C83_fresh_partial.
