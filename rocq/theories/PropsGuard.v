(* The clients of the service guard: C148 to C156. *)
From Verif Require Import Base Base64Model Base64Proofs CryptoModel Maps SqlModel SqlProofs Asn1Model Asn1Proofs JsonModel KeyPoolModel PropsKeyPool WalletModel WalletProofs PropsWallet GuardModel.
Local Open Scope N_scope.
Opaque takeN dropN.
Lemma pairEq {A B} (a b : A) (c d : B) : (a, c) = (b, d) -> a = b /\ c = d.
Proof. intros E. split; congruence. Qed.

(* ---------------- C148: answers and type assertions ---------------- *)
(* members that are strings (booleans) if they are there *)
Definition strIf (name : bytes) (data : list (bytes * json)) : Prop := forall v, member name data = Some v -> exists s, v = JStr s.
Definition boolIf (name : bytes) (data : list (bytes * json)) : Prop := forall v, member name data = Some v -> exists b, v = JBool b.
Lemma member_last name l v l' : Forall (fun m => fst m <> name) l' -> member name (l ++ (name, v) :: l') = Some v.
Proof.
  intros F. assert (N0 : member name l' = None).
  { induction F as [|[k w] l' H F IH]; [reflexivity|]. cbn [member]. rewrite IH. cbn [fst] in H. destruct (beq k name) eqn:E; [apply beq_spec in E; contradiction|reflexivity]. }
  induction l as [|[k w] l IH]; cbn [member app].
  - rewrite N0, beq_refl. reflexivity.
  - rewrite IH. reflexivity.
Qed.
Lemma b64res_np s : b64res s <> Panic.
Proof. unfold b64res. destruct (b64dec s); discriminate. Qed.
Lemma asStr_if name data v : strIf name data -> member name data = Some v -> exists s, asStr (member name data) = Ok s.
Proof. intros S M. destruct (S v M) as [s ->]. rewrite M. exists s. reflexivity. Qed.
Ltac str1 H := match goal with |- context [asStr (member ?n ?d)] => destruct (asStr_if n d _ H ltac:(eassumption)) as [? ->] end.
(* No answer without a wrongly typed member crashes a call (GetVerifyList only if the trust root is configured).
   Missing: a wrongly typed member does, see C148_refuted; the wallet's GetToken, see C148_wallet. *)
Theorem C148_typed_partial : forall C r data,
  (strIf (str "Key") data -> lookupKeyRPC (Ok data) <> Panic) /\
  (strIf (str "Packet") data -> getParamsRPC (Ok data) <> Panic) /\
  (boolIf (str "Status") data -> spendRPC (Ok data) <> Panic) /\
  (strIf (str "Packet") data -> strIf (str "PubkeyUsed") data -> reissueRPC (Ok data) <> Panic) /\
  (strIf (str "PublicKey") data -> strIf (str "Signature") data -> strIf (str "KeyList") data -> getVerifyList C (Some r) (Ok data) <> Panic) /\
  walletBalanceRPC (Ok data) <> Panic.
Proof.
  intros C r data. split; [|split; [|split; [|split; [|split]]]].
  - intros S. unfold lookupKeyRPC. cbn [rbind]. destruct (member (str "Key") data) as [v|] eqn:M; cbn [has]; [|discriminate]. destruct (S v M) as [s ->]. cbn [asStr rbind]. apply b64res_np.
  - intros S. unfold getParamsRPC. cbn [rbind]. destruct (member (str "Packet") data) as [v|] eqn:M; cbn [has]; [|discriminate]. destruct (S v M) as [s ->]. cbn [asStr rbind]. apply b64res_np.
  - intros S. unfold spendRPC. cbn [rbind]. destruct (member (str "Status") data) as [v|] eqn:M; cbn [has]; [|discriminate]. destruct (S v M) as [b ->]. discriminate.
  - intros S T. unfold reissueRPC. cbn [rbind]. destruct (member (str "Packet") data) as [v|] eqn:M; cbn [has negb]; [|discriminate]. destruct (member (str "PubkeyUsed") data) as [w|] eqn:M2; cbn [has negb]; [|discriminate].
    destruct (S v M) as [s ->]. destruct (T w M2) as [u ->]. cbn [asStr rbind]. unfold b64res. destruct (b64dec s); cbn [rbind]; [|discriminate]. destruct (b64dec u); cbn [rbind]; discriminate.
  - intros S T U. unfold getVerifyList. cbn [rbind]. destruct (member (str "PublicKey") data) as [v|] eqn:M; cbn [has negb]; [|discriminate]. destruct (member (str "Signature") data) as [w|] eqn:M2; cbn [has negb]; [|discriminate].
    destruct (member (str "KeyList") data) as [z|] eqn:M3; cbn [has negb]; [|discriminate]. destruct (S v M) as [s ->]. destruct (T w M2) as [u ->]. destruct (U z M3) as [kl ->]. cbn [asStr rbind].
    destruct (hexdec s) as [pk|]; [|discriminate]. destruct (beq (arrN 32 pk) r); cbn [negb]; [|discriminate]. destruct (hexdec u) as [sig|]; [|discriminate]. destruct ((lenN sig =? 64) && edverify C r kl sig); cbn [negb]; [|discriminate].
    generalize (splitComma kl). intros parts. induction parts as [|p ps IH]; cbn [decodeKeys]; [discriminate|]. destruct (hexdec p); [|discriminate]. destruct (decodeKeys ps); cbn [rbind]; [discriminate|discriminate|exact IH].
  - unfold walletBalanceRPC. cbn [rbind]. destruct (member (str "SubscriptionTokens") data) as [[]|]; try discriminate. destruct (member (str "PrepayTokens") data) as [[]|]; try discriminate. destruct (member (str "LastSubscribeLoad") data) as [[]|]; discriminate.
Qed.
(* every call but GetBalance is crashed by some answer; no error is ever turned into a crash *)
Theorem C148_refuted :
  (exists data, lookupKeyRPC (Ok data) = Panic) /\ (exists data, getParamsRPC (Ok data) = Panic) /\ (exists data, spendRPC (Ok data) = Panic) /\
  (exists data, reissueRPC (Ok data) = Panic) /\ (forall C r, exists data, getVerifyList C (Some r) (Ok data) = Panic) /\ (exists data, walletTokenRPC (Ok data) = Panic).
Proof.
  split; [|split; [|split; [|split; [|split]]]].
  - exists [(str "Key", JNull)]. vm_compute. reflexivity.
  - exists [(str "Packet", JN 1)]. vm_compute. reflexivity.
  - exists [(str "Status", JStr (str "true"))]. vm_compute. reflexivity.
  - exists [(str "Packet", JStr []); (str "PubkeyUsed", JNull)]. vm_compute. reflexivity.
  - intros C r. exists [(str "PublicKey", JNull); (str "Signature", JNull); (str "KeyList", JNull)]. reflexivity.
  - exists [(str "Token", JStr []); (str "Params", JStr [])]. vm_compute. reflexivity.
Qed.
(* exactly when the wallet's GetToken crashes: a decodable token and parameters, and a key that is missing or no string *)
Theorem C148_wallet : forall data, walletTokenRPC (Ok data) = Panic <->
  exists t p, member (str "Token") data = Some (JStr t) /\ member (str "Params") data = Some (JStr p) /\ b64dec t <> None /\ b64dec p <> None /\
    forall u, member (str "PubKeyUsed") data <> Some (JStr u).
Proof.
  intros data. unfold walletTokenRPC. cbn [rbind]. split.
  - destruct (member (str "Token") data) as [[]|]; cbn [isStr negb]; try discriminate. destruct (member (str "Params") data) as [[]|]; cbn [isStr negb]; try discriminate. cbn [asStr rbind].
    destruct (b64dec s) eqn:B; [|discriminate]. destruct (b64dec s0) eqn:B0; [|discriminate]. intros E. exists s, s0. rewrite B, B0. repeat (split; [congruence|]).
    intros u M. rewrite M in E. cbn [asStr rbind] in E. destruct (b64dec u); discriminate E.
  - intros (t & p & -> & -> & T & P & U). cbn [isStr negb asStr rbind]. destruct (b64dec t); [|contradiction]. destruct (b64dec p); [|contradiction].
    destruct (member (str "PubKeyUsed") data) as [[]|]; try reflexivity. exfalso. apply (U s). reflexivity.
Qed.
(* of members with the same name the last one counts; the names are compared exactly *)
Theorem C148_members : forall name l v, member name l = Some v <-> exists l1 l2, l = l1 ++ (name, v) :: l2 /\ Forall (fun m => fst m <> name) l2.
Proof.
  intros name l v. split; [|intros (l1 & l2 & -> & F); apply member_last; exact F]. induction l as [|[k w] l IH]; cbn [member]; [discriminate|]. destruct (member name l) as [z|] eqn:M.
  - intros E. assert (z = v) as -> by congruence. destruct (IH eq_refl) as (l1 & l2 & -> & F). exists ((k, w) :: l1), l2. split; [reflexivity|exact F].
  - destruct (beq k name) eqn:B; [|discriminate]. apply beq_spec in B. subst k. intros E. assert (w = v) as -> by congruence. exists [], l. split; [reflexivity|]. clear - M.
    apply Forall_forall. intros [k w] I N. cbn [fst] in N. subst k. induction l as [|[k z] l IH]; [exact I|]. cbn [member] in M. destruct (member name l); [discriminate M|]. destruct I as [I|I]; [|exact (IH eq_refl I)]. assert (k = name) as -> by congruence. rewrite beq_refl in M. discriminate M.
Qed.
Example C148_members_ex : member (str "Key") [(str "Key", JNull); (str "key", JBool true); (str "Key", JBool false)] = Some (JBool false).
Proof. vm_compute. reflexivity. Qed.
(* without a trust root every list of keys crashes the client, signed or not *)
Theorem C148_noroot : forall C data pk, member (str "PublicKey") data = Some (JStr pk) -> hexdec pk <> None -> member (str "Signature") data <> None -> member (str "KeyList") data <> None ->
  getVerifyList C None (Ok data) = Panic.
Proof.
  intros C data pk M H S K. unfold getVerifyList. cbn [rbind]. rewrite M. cbn [has negb]. destruct (member (str "Signature") data); [|contradiction]. destruct (member (str "KeyList") data); [|contradiction]. cbn [has negb asStr rbind]. destruct (hexdec pk); [reflexivity|contradiction].
Qed.
Example C148_ex : let data := [(str "Token", JStr (str "AAEC")); (str "Params", JStr []); (str "PubKeyUsed", JStr (str "/w=="))] in
  walletTokenRPC (Ok data) = Ok ([0; 1; 2], [], [255]) /\ strIf (str "Token") data /\ spendRPC (Ok [(str "Status", JBool false); (str "Status", JBool true)]) = Ok true.
Proof. cbv zeta. split; [vm_compute; reflexivity|]. split; [intros v E; vm_compute in E; injection E as <-; eexists; reflexivity|vm_compute; reflexivity]. Qed.

(* ---------------- C149: the list of verification keys ---------------- *)
Definition sepCS : bytes := [44; 32].
Fixpoint join (parts : list bytes) : bytes := match parts with [] => [] | [p] => p | p :: ps => p ++ sepCS ++ join ps end.
(* [pre], a separator, ... : the text does not contain the separator *)
Definition noSep (p : bytes) : Prop := forall a b, p <> a ++ sepCS ++ b.
(* a key as the client reads a part: its hexadecimal digits, cut or filled with zeros to 32 bytes *)
Definition readAs (part k : bytes) : Prop := exists d, hexdec part = Some d /\ k = takeN 32 (d ++ repeat 0 32).
Lemma splitComma_ne s : splitComma s <> [].
Proof. destruct s as [|c [|d s]]; cbn [splitComma]; try discriminate. destruct ((c =? 44) && (d =? 32)); [discriminate|]. destruct (match s with d0 :: s'' => _ | [] => _ end); discriminate. Qed.
Lemma splitComma_join s : join (splitComma s) = s.
Proof.
  remember (length s) as n eqn:L. assert (LE : (length s <= n)%nat) by lia. clear L. revert s LE. induction n as [|n IH]; intros s LE; [destruct s; [reflexivity|cbn in LE; lia]|].
  destruct s as [|c s]; [reflexivity|]. cbn [length] in LE. cbn [splitComma].
  assert (G : join (match splitComma s with w :: ws => (c :: w) :: ws | [] => [[c]] end) = c :: s).
  { pose proof (IH s ltac:(lia)) as J. destruct (splitComma s) as [|w ws] eqn:E; [apply splitComma_ne in E; contradiction|]. destruct ws as [|w2 ws]; cbn [join] in *; [congruence|]. cbn [app]. f_equal. exact J. }
  destruct s as [|d s]; [exact G|]. destruct ((c =? 44) && (d =? 32)) eqn:E; [|exact G].
  apply andb_true_iff in E as [E1 E2]. apply N.eqb_eq in E1, E2. subst. cbn [length] in LE. specialize (IH s ltac:(lia)). pose proof (splitComma_ne s). destruct (splitComma s) as [|w ws]; [contradiction|]. change (sepCS ++ join (w :: ws) = 44 :: 32 :: s). rewrite IH. reflexivity.
Qed.
Lemma noSep_cons c p : noSep p -> (c <> 44 \/ hd 0 p <> 32) -> noSep (c :: p).
Proof.
  intros N0 H a b E. destruct a as [|x a]; cbn [app sepCS] in E.
  - injection E as E1 E2. subst. cbn [hd] in H. destruct H; congruence.
  - injection E as E1 E2. exact (N0 a b E2).
Qed.
Lemma splitComma_noSep s : Forall noSep (splitComma s).
Proof.
  assert (N0 : noSep []) by (intros a b E; destruct a; discriminate).
  assert (K : forall n s, (length s <= n)%nat -> Forall noSep (splitComma s) /\ exists w ws, splitComma s = w :: ws /\ (w = [] \/ hd 0 w = hd 0 s)).
  { intros n. induction n as [|n IH]; intros t LE.
    - destruct t; [|cbn in LE; lia]. split; [repeat constructor; exact N0|]. exists [], []. auto.
    - destruct t as [|c t]; [split; [repeat constructor; exact N0|]; exists [], []; auto|]. cbn [length] in LE. cbn [splitComma].
      destruct (IH t ltac:(lia)) as (F & w & ws & E & Hh). rewrite E in F. inversion F as [|? ? F1 F2]; subst. rewrite E.
      destruct t as [|d t].
      + cbn in E. injection E as <- <-. split; [|exists [c], []; auto]. constructor; [|constructor]. apply noSep_cons; [exact N0|]. right. cbn. discriminate.
      + destruct ((c =? 44) && (d =? 32)) eqn:B.
        * cbn [length] in LE. destruct (IH t ltac:(lia)) as (G & _). split; [constructor; [exact N0|exact G]|]. exists [], (splitComma t). auto.
        * split; [|exists (c :: w), ws; auto]. constructor; [|exact F2]. apply noSep_cons; [exact F1|]. apply andb_false_iff in B as [B|B]; apply N.eqb_neq in B; [left; exact B|right].
          destruct Hh as [-> |Hh]; [cbn; discriminate|]. rewrite Hh. exact B. }
  exact (proj1 (K (length s) s (le_n _))).
Qed.
Lemma decodeKeys_spec parts : forall ks, decodeKeys parts = Ok ks <-> Forall2 readAs parts ks.
Proof.
  induction parts as [|p ps IH]; intros ks; cbn [decodeKeys].
  - split; [intros E; assert (ks = []) as -> by congruence; constructor|]. intros F. inversion F. reflexivity.
  - destruct (hexdec p) as [d|] eqn:H.
    + destruct (decodeKeys ps) as [l|s|] eqn:D; cbn [rbind].
      * split.
        -- intros E. assert (ks = arrN 32 d :: l) as -> by congruence. constructor; [exists d; split; [exact H|reflexivity]|]. apply IH. reflexivity.
        -- intros F. inversion F as [|? k ? l' (d' & H' & ->) F2]; subst. apply IH in F2. assert (d' = d) as -> by congruence. assert (l' = l) as -> by congruence. reflexivity.
      * split; [discriminate|]. intros F. inversion F; subst. apply IH in H4. discriminate.
      * split; [discriminate|]. intros F. inversion F; subst. apply IH in H4. discriminate.
    + split; [discriminate|]. intros F. inversion F as [|? k ? l' (d' & H' & ->) F2]; subst. congruence.
Qed.
(* only lists signed by the trust root are used, and all of their parts are *)
Theorem C149_signed : forall C r ans ks, getVerifyList C (Some r) ans = Ok ks ->
  exists data kl sig parts, ans = Ok data /\ member (str "KeyList") data = Some (JStr kl) /\ lenN sig = 64 /\ edverify C r kl sig = true /\
    (exists pk, member (str "PublicKey") data = Some (JStr pk) /\ readAs pk r) /\ join parts = kl /\ parts <> [] /\ Forall noSep parts /\ Forall2 readAs parts ks.
Proof.
  intros C r ans ks E. unfold getVerifyList in E. destruct ans as [data|s|]; [|discriminate E|discriminate E]. cbn [rbind] in E.
  destruct (member (str "PublicKey") data) as [v|] eqn:M; cbn [has negb] in E; [|discriminate E]. destruct (member (str "Signature") data) as [w|] eqn:M2; cbn [has negb] in E; [|discriminate E].
  destruct (member (str "KeyList") data) as [z|] eqn:M3; cbn [has negb] in E; [|discriminate E]. destruct v as [| | |pk| |]; try discriminate E. cbn [asStr rbind] in E.
  destruct (hexdec pk) as [pkd|] eqn:HP; [|discriminate E]. destruct (beq (arrN 32 pkd) r) eqn:BR; cbn [negb] in E; [|discriminate E]. apply beq_spec in BR.
  destruct w as [| | |sg| |]; try discriminate E. cbn [asStr rbind] in E. destruct (hexdec sg) as [sig|]; [|discriminate E]. destruct z as [| | |kl| |]; try discriminate E. cbn [asStr rbind] in E.
  destruct ((lenN sig =? 64) && edverify C r kl sig) eqn:V; cbn [negb] in E; [|discriminate E]. apply andb_true_iff in V as [V1 V2]. apply N.eqb_eq in V1.
  exists data, kl, sig, (splitComma kl). split; [reflexivity|]. split; [exact M3|]. split; [exact V1|]. split; [exact V2|]. split; [exists pk; split; [exact M|exists pkd; split; [exact HP|symmetry; exact BR]]|].
  split; [apply splitComma_join|]. split; [apply splitComma_ne|]. split; [apply splitComma_noSep|]. apply decodeKeys_spec, E.
Qed.
Lemma splitComma_app p s : Forall (fun c => c <> 44) p -> splitComma (p ++ 44 :: 32 :: s) = p :: splitComma s.
Proof.
  intros F. induction F as [|c p H F IH]; [reflexivity|]. cbn [app splitComma]. rewrite IH. destruct (p ++ 44 :: 32 :: s) as [|d r]; [reflexivity|]. apply N.eqb_neq in H. rewrite H. reflexivity.
Qed.
Lemma splitComma_one p : Forall (fun c => c <> 44) p -> splitComma p = [p].
Proof.
  intros F. induction F as [|c p H F IH]; [reflexivity|]. cbn [splitComma]. rewrite IH. destruct p as [|d r]; [reflexivity|]. apply N.eqb_neq in H. rewrite H. reflexivity.
Qed.
Lemma hexenc_no44 b : wfb b -> Forall (fun c => c <> 44) (hexenc b).
Proof.
  assert (H : forall n, n < 16 -> hexchar n <> 44). { intros n L. unfold hexchar. destruct (N.ltb_spec n 10); lia. }
  intros W. induction W as [|x b L W IH]; [constructor|]. cbn [hexenc]. constructor; [apply H; lia|]. constructor; [apply H; lia|exact IH].
Qed.
(* a list of proper keys is read as these keys.  Missing: other parts are not refused, see C149_refuted. *)
Theorem C149_keys_partial : forall C r data keys sig, keys <> [] -> Forall (fun k => lenN k = 32 /\ wfb k) keys -> lenN r = 32 -> wfb r -> wfb sig -> lenN sig = 64 ->
  member (str "PublicKey") data = Some (JStr (hexenc r)) -> member (str "Signature") data = Some (JStr (hexenc sig)) -> member (str "KeyList") data = Some (JStr (join (map hexenc keys))) ->
  edverify C r (join (map hexenc keys)) sig = true -> getVerifyList C (Some r) (Ok data) = Ok keys.
Proof.
  intros C r data keys sig NE F LR WR WS LS M1 M2 M3 V. unfold getVerifyList. cbn [rbind]. rewrite M1, M2, M3. cbn [has negb asStr rbind]. rewrite hexdec_enc by exact WR. rewrite arrN_id by exact LR. rewrite beq_refl. cbn [negb].
  rewrite hexdec_enc by exact WS. rewrite LS, V. cbn [N.eqb negb andb]. change (64 =? 64) with true. cbn [andb negb].
  assert (S : splitComma (join (map hexenc keys)) = map hexenc keys).
  { clear M3 V. induction F as [|k keys [L W] F IH]; [contradiction|]. destruct keys as [|k2 keys]; [cbn [map join]; apply splitComma_one, hexenc_no44, W|].
    change (join (map hexenc (k :: k2 :: keys))) with (hexenc k ++ 44 :: 32 :: join (map hexenc (k2 :: keys))). rewrite splitComma_app by (apply hexenc_no44, W). rewrite IH by discriminate. reflexivity. }
  rewrite S. apply decodeKeys_spec. clear - F. induction F as [|k keys [L W] F IH]; cbn [map]; constructor; [|exact IH]. exists k. split; [apply hexdec_enc, W|]. symmetry. exact (arrN_id 32 k L).
Qed.
Definition exRoot : bytes := edpub toy (str "root").
Definition exSigned (kl : bytes) : rpc := Ok [(str "PublicKey", JStr (hexenc exRoot)); (str "Signature", JStr (hexenc (edsign toy (str "root") kl))); (str "KeyList", JStr kl)].
(* Lists signed by the trust root.  The empty list is read as the key of 32 zeros, a key of one byte is filled with zeros and
   one of 33 bytes is cut. *)
Theorem C149_refuted : getVerifyList toy (Some exRoot) (exSigned []) = Ok [repeat 0 32] /\
  getVerifyList toy (Some exRoot) (exSigned (str "07, " ++ hexenc (repeat 9 33))) = Ok [7 :: repeat 0 31; repeat 9 32].
Proof. split; vm_compute; reflexivity. Qed.
Example C149_ex : getVerifyList toy (Some exRoot) (exSigned (join (map hexenc [repeat 1 32; repeat 2 32]))) = Ok [repeat 1 32; repeat 2 32] /\
  getVerifyList toy (Some exRoot) (match exSigned [] with Ok d => Ok (d ++ [(str "KeyList", JStr (str "00"))]) | x => x end) = Err "keylookup: bad signature" /\
  getVerifyList toy (Some (repeat 4 32)) (exSigned []) = Err "keylookup: bad signer".
Proof. repeat split; vm_compute; reflexivity. Qed.

Example C148_noroot_ex : getVerifyList toy None (exSigned (hexenc (repeat 1 32))) = Panic.
Proof. vm_compute. reflexivity. Qed.

(* ---------------- C150, C151: whom a client trusts ---------------- *)
(* a key that stood in a list signed by the trust root *)
Definition signedKey (C : Crypto) (root : option bytes) (k : bytes) : Prop :=
  exists r kl sig parts part, root = Some r /\ lenN sig = 64 /\ edverify C r kl sig = true /\ join parts = kl /\ Forall noSep parts /\ In part parts /\ readAs part k.
(* an issuer's key signed by such a key *)
Record keyOk (C : Crypto) (root : option bytes) (k : pubKey) : Prop := {
  koID : pkID k = sha256 C (keyImage k);
  koSig : edverify C (pkSigner k) (pkID k) (pkSig k) = true;
  koTrust : signedKey C root (pkSigner k) }.
Definition pOk (C : Crypto) (root : option bytes) (p : pool) : Prop :=
  oGen p = clientGen /\ (forall x, In x (oTrust p) -> signedKey C root x) /\ forall id k, mget id (oKeys p) = Some k -> id = pkID k /\ keyOk C root k /\ In (pkSigner k) (oTrust p).
Definition sOk (C : Crypto) (root : option bytes) (s : store) : Prop := forall x, In x (kKeys (cacheOr s)) -> signedKey C root x.
Definition cOk (C : Crypto) (root : option bytes) (c : client) : Prop := pOk C root (cPool c) /\ sOk C root (cStore c).
Lemma list_signed C root ans ks : getVerifyList C root ans = Ok ks -> forall x, In x ks -> signedKey C root x.
Proof.
  intros E x I. destruct root as [r|].
  - apply C149_signed in E as (data & kl & sig & parts & _ & _ & L & V & _ & J & _ & NS & F). assert (exists part, In part parts /\ readAs part x) as (part & IP & RA).
    { clear - F I. induction F as [|p k ps ks H F IH]; [destruct I|]. destruct I as [<-|I]; [exists p; split; [left; reflexivity|exact H]|]. destruct (IH I) as (q & Q & R). exists q. split; [right; exact Q|exact R]. }
    exists r, kl, sig, parts, part. auto 8.
  - exfalso. unfold getVerifyList in E. destruct ans as [data|s|]; cbn [rbind] in E; try discriminate E. destruct (has (member (str "PublicKey") data)); cbn [negb] in E; [|discriminate E]. destruct (has (member (str "Signature") data)); cbn [negb] in E; [|discriminate E].
    destruct (has (member (str "KeyList") data)); cbn [negb] in E; [|discriminate E]. destruct (asStr (member (str "PublicKey") data)); cbn [rbind] in E; try discriminate E. destruct (hexdec a); discriminate E.
Qed.
Lemma load_ok C root now k p r p' : pOk C root p -> loadKey C now k p = (r, p') -> pOk C root p' /\ oTrust p' = oTrust p /\ (r = Ok (pkID k) \/ r = Err errExists -> keyOk C root k /\ (now <= pkExp k)%Z).
Proof.
  intros (G & T & K) E. apply loadKey_spec in E as (G' & T' & K' & S & _).
  assert (KO : r = Ok (pkID k) \/ r = Err errExists -> keyOk C root k /\ (now <= pkExp k)%Z /\ In (pkSigner k) (oTrust p)).
  { intros H. destruct (S H) as [A B D _ (t & [<-|[]] & LE)]. assert (I : In (pkSigner k) (oTrust p)) by (destruct D as [D|D]; [exact D|rewrite G in D; discriminate D]). split; [|split; [exact LE|exact I]]. constructor; [exact A|exact B|]. apply T, I. }
  split; [|split; [exact T'|intros H; destruct (KO H) as (H1 & H2 & _); auto]]. split; [congruence|]. split; [rewrite T'; exact T|]. rewrite T'. intros id k' M. destruct K' as [[KE _]|[-> K']]; [rewrite KE in M; exact (K id k' M)|].
  rewrite K', mget_mset in M. destruct (beq id (pkID k)) eqn:B; [|exact (K id k' M)]. apply beq_spec in B. assert (k' = k) as -> by congruence. split; [exact B|]. destruct (KO (or_introl eq_refl)) as (H1 & _ & H3). auto.
Qed.
Lemma load_res C now k p r p' : loadKey C now k p = (r, p') -> is_ok r = true -> r = Ok (pkID k).
Proof. intros E. apply loadKey_spec in E as (_ & _ & _ & _ & H). exact H. Qed.
Lemma lookup_ok C root e id p r p' : pOk C root p -> lookupKey C e id p = (r, p') -> pOk C root p' /\ oTrust p' = oTrust p /\ forall k, r = Ok k -> keyOk C root k /\ pkID k = id /\ (eNow e <= pkExp k)%Z.
Proof.
  intros O E. assert (SN : pOk C root p' /\ oTrust p' = oTrust p).
  { replace p' with (snd (lookupKey C e id p)) by (rewrite E; reflexivity). destruct (lookupKey_snd C e id p) as [->|[k ->]]; [auto|]. destruct (loadKey C (eNow e) k p) as [r0 p0] eqn:L. destruct (load_ok _ _ _ _ _ _ _ O L) as (A & B & _). auto. }
  split; [exact (proj1 SN)|]. split; [exact (proj2 SN)|]. intros k ->. unfold lookupKey, lookup_ in E. destruct (mget id (oKeys p)) as [d|] eqn:M.
  - destruct (eNow e <? pkExp d)%Z eqn:X; [|destruct (eFetch e); discriminate E]. assert (k = d) as -> by (destruct (eFetch e); congruence). destruct O as (_ & _ & K). destruct (K id d M) as (-> & KO & _). apply Z.ltb_lt in X. split; [exact KO|]. split; [reflexivity|lia].
  - destruct (eFetch e) as [fetch|]; [|discriminate E]. destruct (fetch id) as [d|s|]; [|discriminate E|discriminate E]. destruct (keyUnmarshal d) as [k'|s|]; [|discriminate E|discriminate E]. destruct (loadKey C (eNow e) k' p) as [r0 q] eqn:L.
    pose proof (load_res _ _ _ _ _ _ L) as R. destruct (load_ok _ _ _ _ _ _ _ O L) as (_ & _ & KO). destruct r0 as [x|s|]; [| |discriminate E].
    + destruct (beq (pkID k') id) eqn:Q; [|discriminate E]. apply beq_spec in Q. assert (k = k') as -> by congruence. destruct (KO (or_introl (R eq_refl))). auto.
    + destruct (String.eqb s errExists) eqn:SE; [|discriminate E]. apply String.eqb_eq in SE. destruct (beq (pkID k') id) eqn:Q; [|discriminate E]. apply beq_spec in Q. assert (k = k') as -> by congruence. destruct (KO ltac:(right; congruence)). auto.
Qed.
Lemma trustKeys_spec ks : forall p, oGen (trustKeys ks p) = oGen p /\ oKeys (trustKeys ks p) = oKeys p /\ forall x, In x (oTrust (trustKeys ks p)) <-> In x ks \/ In x (oTrust p).
Proof.
  unfold trustKeys. induction ks as [|k ks IH]; intros p; cbn [fold_left]; [split; [reflexivity|]; split; [reflexivity|]; cbn [In]; tauto|]. destruct (IH (addVerifyKey k p)) as (A & B & D). split; [exact A|]. split; [exact B|]. intros x. rewrite D. cbn [addVerifyKey oTrust In]. tauto.
Qed.
Lemma trust_ok C root ks p : pOk C root p -> (forall x, In x ks -> signedKey C root x) -> pOk C root (trustKeys ks p).
Proof. intros (G & T & K) H. destruct (trustKeys_spec ks p) as (A & B & D). split; [congruence|]. split; [intros x I; apply D in I as [I|I]; auto|]. rewrite B. intros id k M. destruct (K id k M) as (H1 & H2 & H3). split; [exact H1|]. split; [exact H2|]. apply D. right. exact H3. Qed.
Lemma readCache_keys s : readCache s = s.
Proof. unfold readCache. destruct (mget cacheKey (wSt (stDB s))); reflexivity. Qed.
Lemma getVerifyKeys_spec s : fst (getVerifyKeys s) = kKeys (cacheOr s) /\ cacheOr (snd (getVerifyKeys s)) = cacheOr s /\ stDB (snd (getVerifyKeys s)) = stDB s.
Proof. unfold getVerifyKeys. rewrite readCache_keys. destruct s as [db [c|]]; cbn [stCache cacheOr fst snd stDB]; auto. Qed.
Lemma verifyKeys_ok C root ans c : cOk C root c -> cOk C root (snd (cVerifyKeys C root ans c)).
Proof.
  assert (OFF : forall c, cOk C root c -> cOk C root (let (ks, s) := getVerifyKeys (cStore c) in withPool (trustKeys ks (cPool c)) (withStore s c))).
  { intros c0 [P S]. destruct (getVerifyKeys_spec (cStore c0)) as (A & B & D). destruct (getVerifyKeys (cStore c0)) as [ks s]. cbn [fst snd] in *. subst ks. split; cbn [withPool withStore cPool cStore]; [apply trust_ok; [exact P|exact S]|]. unfold sOk. rewrite B. exact S. }
  intros O. unfold cVerifyKeys. destruct (cOnline c); [|exact (OFF c O)]. destruct (getVerifyList C root ans) as [ks|s|] eqn:E.
  - cbn [snd]. destruct O as [P S]. pose proof (list_signed _ _ _ _ E) as L. split; cbn [withPool withStore cPool cStore]; [apply trust_ok; assumption|]. unfold sOk, setVerifyKeys, writeCache, cacheOr. cbn [stCache kKeys]. exact L.
  - cbn [snd]. apply OFF. exact O.
  - exact O.
Qed.
Lemma getPubKey_ok C root e ans id c r c' : cOk C root c -> getPubKey C e ans id c = (r, c') ->
  cOk C root c' /\ cStore c' = cStore c /\ cKey c' = cKey c /\ oTrust (cPool c') = oTrust (cPool c) /\ forall k, r = Ok k -> keyOk C root k /\ (eNow e <= pkExp k)%Z /\ (cOnline c = false -> pkID k = id).
Proof.
  intros [P S] E. unfold getPubKey in E. destruct (lookupKey C e id (cPool c)) as [r0 p] eqn:L. destruct (lookup_ok _ _ _ _ _ _ _ P L) as (PO & TR & KO). destruct r0 as [k0|s|].
  - apply pairEq in E as [<- <-]. split; [split; assumption|]. do 3 (split; [first [reflexivity|exact TR]|]). intros k K. destruct (KO k K) as (A & B & D). auto.
  - cbv zeta in E. destruct (String.eqb s errNotFound); cbn [negb] in E; [|apply pairEq in E as [<- <-]; split; [split; assumption|]; do 3 (split; [first [reflexivity|exact TR]|]); discriminate].
    change (cOnline (withLast (Some s) (withPool p c))) with (cOnline c) in E. destruct (cOnline c) eqn:ON; cbn [negb] in E; [|apply pairEq in E as [<- <-]; split; [split; assumption|]; do 3 (split; [first [reflexivity|exact TR]|]); discriminate].
    destruct (getKeyRPC ans) as [k0|s0|]; [|apply pairEq in E as [<- <-]; split; [split; assumption|]; do 3 (split; [first [reflexivity|exact TR]|]); discriminate|apply pairEq in E as [<- <-]; split; [split; assumption|]; do 3 (split; [first [reflexivity|exact TR]|]); discriminate].
    change (cPool (withLast (Some s) (withPool p c))) with p in E. destruct (loadKey C (eNow e) k0 p) as [r1 p1] eqn:L1. destruct (load_ok _ _ _ _ _ _ _ PO L1) as (PO1 & TR1 & KO1). pose proof (load_res _ _ _ _ _ _ L1) as R1. assert (T : oTrust p1 = oTrust (cPool c)) by congruence.
    destruct r1 as [x|s1|].
    + apply pairEq in E as [<- <-]. split; [split; assumption|]. do 3 (split; [first [reflexivity|exact T]|]). intros k K. assert (k = k0) as -> by congruence. destruct (KO1 (or_introl (R1 eq_refl))). split; [assumption|]. split; [assumption|discriminate].
    + destruct (String.eqb s1 errExists) eqn:SE.
      * apply String.eqb_eq in SE. apply pairEq in E as [<- <-]. split; [split; assumption|]. do 3 (split; [first [reflexivity|exact T]|]). intros k K. assert (k = k0) as -> by congruence. destruct (KO1 ltac:(right; congruence)). split; [assumption|]. split; [assumption|discriminate].
      * apply pairEq in E as [<- <-]. split; [split; assumption|]. do 3 (split; [first [reflexivity|exact T]|]). discriminate.
    + apply pairEq in E as [<- <-]. split; [split; assumption|]. do 3 (split; [first [reflexivity|exact T]|]). discriminate.
  - apply pairEq in E as [<- <-]. split; [split; assumption|]. do 3 (split; [first [reflexivity|exact TR]|]). discriminate.
Qed.
(* what an accepted token is: its fields, its signature and the key it was verified with *)
Definition accepted (C : Crypto) (B : Blind) (root : option bytes) (now : Z) (tok : bytes) (te : tokenEntry) (t : token) (k : pubKey) : Prop :=
  tokenUnmarshal tok = Ok t /\ keyOk C root k /\ (now <= pkExp k)%Z /\ bVerify B (pkX k, pkY k) (getSignature t) (sha256 C (tokenImage t)) = Ok true /\
  te = mkTE (sha256 C (tokenImage t)) tok None (if kFlag t then Some (takeN 32 (kOwner t ++ repeat 0 32)) else None) None false false (pkUsage k) (pkExp k) None None None None.
Lemma cVerify_ok C B root e ans tok c r c' : cOk C root c -> cVerify C B e ans tok c = (r, c') ->
  cOk C root c' /\ cStore c' = cStore c /\ cKey c' = cKey c /\ oTrust (cPool c') = oTrust (cPool c) /\
  forall te, r = Ok te -> exists t k, accepted C B root (eNow e) tok te t k /\ (cOnline c = false -> pkID k = takeN 32 (kID t ++ repeat 0 32)).
Proof.
  intros O E. unfold cVerify in E. destruct (tokenUnmarshal tok) as [t|s|] eqn:U.
  2,3: apply pairEq in E as [<- <-]; split; [exact O|]; do 3 (split; [reflexivity|]); discriminate.
  unfold tokenProps in E. cbv iota beta in E. destruct (getPubKey C e ans (arrN 32 (kID t)) c) as [r0 c0] eqn:G. destruct (getPubKey_ok _ _ _ _ _ _ _ _ O G) as (O0 & S0 & K0 & T0 & H0).
  destruct r0 as [k|s|]; [|apply pairEq in E as [<- <-]; split; [exact O0|]; do 3 (split; [assumption|]); discriminate|apply pairEq in E as [<- <-]; split; [exact O0|]; do 3 (split; [assumption|]); discriminate].
  destruct (H0 k eq_refl) as (KO & EX & OFF).
  destruct (pkExp k <? eNow e)%Z; [apply pairEq in E as [<- <-]; split; [exact O0|]; do 3 (split; [assumption|]); discriminate|].
  destruct (bVerify B (pkPoint k) (getSignature t) (tokenHash C t)) as [[|]|s|] eqn:V; apply pairEq in E as [<- <-]; (split; [exact O0|]); do 3 (split; [assumption|]); try discriminate.
  intros te TE. exists t, k. split; [|exact OFF]. split; [exact U|]. split; [exact KO|]. split; [exact EX|]. split; [exact V|]. assert (Q : forall (a b : tokenEntry), Ok a = Ok b -> b = a) by congruence. apply Q in TE. exact TE.
Qed.
Definition sameTrust (c c' : client) : Prop := oTrust (cPool c') = oTrust (cPool c) /\ cacheOr (cStore c') = cacheOr (cStore c).
Lemma cOk_store C root c db : cOk C root c -> cOk C root (withStore (mkStore db (stCache (cStore c))) c).
Proof. intros [P S]. split; [exact P|exact S]. Qed.
Lemma receive_keeps C B root e ans usage tok c : cOk C root c -> cOk C root (snd (receiveToken C B e ans usage tok c)) /\ sameTrust c (snd (receiveToken C B e ans usage tok c)).
Proof.
  intros O. unfold receiveToken. destruct (cVerify C B e ans tok c) as [r c0] eqn:V. destruct (cVerify_ok _ _ _ _ _ _ _ _ _ O V) as (O0 & S0 & K0 & T0 & _). assert (ST : sameTrust c c0) by (split; [exact T0|rewrite S0; reflexivity]).
  destruct r as [te|s|]; [|auto|auto]. destruct (negb (beq (tUsage te) usage)); [split; assumption|]. destruct (tPub te) as [o|]; [|split; assumption]. destruct (negb (beq o (walletPub c0))); [split; assumption|]. destruct (getToken (tHash te) (-1) (stDB (cStore c0))); [split; assumption| |split; assumption].
  destruct (setToken te (stDB (cStore c0))); cbn [snd]; [|split; assumption|split; assumption]. split; [apply cOk_store, O0|]. destruct ST as [X Y]. split; [exact X|exact Y].
Qed.
Lemma wallet_keeps C B root e owner got c : cOk C root c -> cOk C root (snd (walletToken C B e owner got c)) /\ sameTrust c (snd (walletToken C B e owner got c)).
Proof.
  intros O. unfold walletToken. destruct got as [[tok params] used]. destruct (tokenUnmarshal tok) as [t|s|]; [|split; [exact O|split; reflexivity]|split; [exact O|split; reflexivity]]. destruct (keyUnmarshal used) as [k|s|]; [|split; [exact O|split; reflexivity]|split; [exact O|split; reflexivity]].
  destruct (loadKey C (eNow e) k (cPool c)) as [r p] eqn:L. destruct O as [P S]. destruct (load_ok _ _ _ _ _ _ _ P L) as (PO & TR & _). assert (O1 : cOk C root (withPool p c)) by (split; assumption). assert (ST : sameTrust c (withPool p c)) by (split; [exact TR|reflexivity]). cbv zeta. set (c1 := withPool p c) in *. clearbody c1.
  match goal with |- context [match r with Ok _ => ?G | Err _ => _ | Panic => _ end] => assert (GO : cOk C root (snd G) /\ sameTrust c (snd G)) end.
  { destruct (match params with [] => Ok true | _ => _ end) as [renewable|s|]; [|split; assumption|split; assumption].
    match goal with |- context [setToken ?a ?b] => destruct (setToken a b) end; cbn [snd]; [|split; assumption|split; assumption]. split; [apply cOk_store, O1|]. destruct ST as [X Y]. split; [exact X|exact Y]. }
  destruct r as [x|s|]; [exact GO| |split; assumption]. destruct (String.eqb s errExists); [exact GO|split; assumption].
Qed.
Lemma reissue_pool C B root e old oo no params rnd rnd2 p r p' : pOk C root p -> protoReissue C B e old oo no params rnd rnd2 p = (r, p') -> pOk C root p' /\ oTrust p' = oTrust p.
Proof.
  intros O E. unfold protoReissue in E. destruct (tokenUnmarshal old) as [t|s|]; [|apply pairEq in E as [<- <-]; auto|apply pairEq in E as [<- <-]; auto]. destruct (unmarshalParams B params) as [[[k pub] can]|s|]; [|apply pairEq in E as [<- <-]; auto|apply pairEq in E as [<- <-]; auto].
  destruct (lookupKey C e (arrN 32 (kID t)) p) as [r0 p1] eqn:L. destruct (lookup_ok _ _ _ _ _ _ _ O L) as (O1 & T1 & _). destruct r0 as [ok|s|]; [|apply pairEq in E as [<- <-]; auto|apply pairEq in E as [<- <-]; auto].
  destruct (negb (beq (pkUsage ok) (pkUsage k))); [apply pairEq in E as [<- <-]; auto|]. destruct (negb (beq (pkSigner ok) (pkSigner k))); [apply pairEq in E as [<- <-]; auto|].
  destruct (loadKey C (eNow e) k p1) as [r1 p2] eqn:L1. destruct (load_ok _ _ _ _ _ _ _ O1 L1) as (O2 & T2 & _). assert (T : oTrust p2 = oTrust p) by congruence. cbv zeta in E.
  destruct r1 as [x|s|]; [apply pairEq in E as [_ <-]; auto| |apply pairEq in E as [_ <-]; auto]. destruct (String.eqb s errExists); apply pairEq in E as [_ <-]; auto.
Qed.
Lemma done_keeps C B root e te blind reply used c : cOk C root c -> cOk C root (snd (reissueDone C B e te blind reply used c)) /\ sameTrust c (snd (reissueDone C B e te blind reply used c)).
Proof.
  intros O0. unfold reissueDone. cbv zeta. set (c1 := withStore (mkStore (delToken (tHash te) (stDB (cStore c))) (stCache (cStore c))) c).
  assert (O : cOk C root c1) by (apply cOk_store, O0). assert (ST0 : sameTrust c c1) by (split; reflexivity). clearbody c1. clear O0.
  destruct (keyUnmarshal used) as [k|s|]; [|split; assumption|split; assumption].
  destruct (loadKey C (eNow e) k (cPool c1)) as [r p] eqn:L. destruct O as [P S]. destruct (load_ok _ _ _ _ _ _ _ P L) as (PO & TR & _). assert (O1 : cOk C root (withPool p c1)) by (split; assumption).
  assert (ST : sameTrust c (withPool p c1)). { destruct ST0 as [X Y]. split; [change (oTrust p = oTrust (cPool c)); congruence|exact Y]. }
  set (c2 := withPool p c1) in *. clearbody c2.
  match goal with |- context [match r with Ok _ => ?G | Err _ => _ | Panic => _ end] => assert (GO : cOk C root (snd G) /\ sameTrust c (snd G)) end.
  { destruct (do v <- privUnmarshal blind; unblind C B v reply) as [tok|s|]; [|split; assumption|split; assumption]. destruct (tokenUnmarshal tok) as [t|s|]; [|split; assumption|split; assumption].
    destruct (lookupKey C e (fst (tokenProps t)) (cPool c2)) as [r0 p0] eqn:LK. destruct O1 as [P1 S1]. destruct (lookup_ok _ _ _ _ _ _ _ P1 LK) as (PO1 & TR1 & _). assert (O2 : cOk C root (withPool p0 c2)) by (split; assumption).
    assert (ST2 : sameTrust c (withPool p0 c2)). { destruct ST as [X Y]. split; [change (oTrust p0 = oTrust (cPool c)); congruence|exact Y]. }
    destruct r0 as [nk|s|]; [|split; assumption|split; assumption]. match goal with |- context [setToken ?a ?b] => destruct (setToken a b) end; cbn [snd]; [|split; assumption|split; assumption].
    split; [exact (cOk_store C root (withPool p0 c2) _ O2)|]. destruct ST2 as [X Y]. split; [exact X|exact Y]. }
  destruct r as [x|s|]; [exact GO| |split; assumption]. destruct (String.eqb s errExists); [exact GO|split; assumption].
Qed.
Lemma goOnline_snd C root ans c : snd (goOnline C root ans c) = snd (cVerifyKeys C root ans c) \/ snd (goOnline C root ans c) = withOnline true (snd (cVerifyKeys C root ans c)).
Proof. unfold goOnline. destruct (cVerifyKeys C root ans c) as [[u|s|] c0]; auto. Qed.
Lemma cstep_ok C B root o c : cOk C root c -> cOk C root (cstep C B root c o).
Proof.
  intros O. destruct o; cbn [cstep].
  - destruct (goOnline_snd C root ans c) as [->| ->]; [apply verifyKeys_ok, O|]. exact (verifyKeys_ok C root ans c O).
  - exact O.
  - apply verifyKeys_ok, O.
  - destruct (cVerify C B e ans tok c) as [r c0] eqn:V. exact (proj1 (cVerify_ok _ _ _ _ _ _ _ _ _ O V)).
  - apply receive_keeps, O.
  - apply wallet_keeps, O.
  - unfold reissueAsk. destruct (protoReissue C B e old oldOwner newOwner params rnd rnd2 (cPool c)) as [r p] eqn:E. destruct O as [P S]. split; [exact (proj1 (reissue_pool _ _ _ _ _ _ _ _ _ _ _ _ _ P E))|exact S].
  - apply done_keeps, O.
Qed.
Lemma crun_ok C B root ops : forall c, cOk C root c -> cOk C root (crun C B root ops c).
Proof. unfold crun. induction ops as [|o ops IH]; intros c O; cbn [fold_left]; [exact O|]. apply IH, cstep_ok, O. Qed.
(* a new client: the key files cannot be loaded, as no signer is trusted yet *)
Lemma loadKey_untrusted C now k p : oTrust p = [] -> snd (loadKey C now k p) = p.
Proof.
  intros T. unfold loadKey. destruct (_ && _); [reflexivity|]. destruct (_ <? _)%Z; [reflexivity|]. unfold hasVerifyKey. rewrite T. reflexivity.
Qed.
Lemma loadFiles_untrusted C now files : forall p, oTrust p = [] -> snd (loadFiles C now files p) = p.
Proof.
  induction files as [|[d|] files IH]; intros p T; cbn [loadFiles]; try reflexivity. destruct (keyUnmarshal d); try reflexivity. rewrite loadKey_untrusted by exact T. apply IH, T.
Qed.
Lemma newClient_spec C now files key s c : newClient C now files key s = Ok c -> c = mkCl false key (newPool clientGen) s None.
Proof.
  unfold newClient. intros E. pose proof (loadFiles_untrusted C now files (newPool clientGen) eq_refl) as L. destruct (loadFiles C now files (newPool clientGen)) as [r p]. cbn [snd] in L. subst p. destruct r; try discriminate E. congruence.
Qed.
Lemma newClient_ok C now files key s c root : stCache s = None -> newClient C now files key s = Ok c -> cOk C root c.
Proof.
  intros SC E. apply newClient_spec in E as ->. split; cbn [cPool cStore].
  - split; [reflexivity|]. split; [intros x []|]. cbn [newPool oKeys mget]. discriminate.
  - unfold sOk, cacheOr. rewrite SC. intros x [].
Qed.
(* whatever a client does and whatever the servers answer: each trusted key was in a list signed by the trust root, each key of an issuer
   was signed by such a key.  Missing: that the list is the current one, see C150_refuted. *)
Theorem C150_signed_partial : forall C B root now files key s c0 ops, stCache s = None -> newClient C now files key s = Ok c0 ->
  let c := crun C B root ops c0 in
  (forall x, In x (oTrust (cPool c)) -> signedKey C root x) /\ (forall x, In x (fst (getVerifyKeys (cStore c))) -> signedKey C root x) /\
  forall id k, mget id (oKeys (cPool c)) = Some k -> id = pkID k /\ keyOk C root k.
Proof.
  intros C B root now files key s c0 ops SC NC c. destruct (crun_ok C B root ops c0 (newClient_ok _ _ _ _ _ _ root SC NC)) as [(_ & T & K) S]. fold c in T, K, S. split; [exact T|]. split; [intros x I; rewrite (proj1 (getVerifyKeys_spec _)) in I; apply S, I|]. intros id k M. destruct (K id k M) as (H1 & H2 & _). auto.
Qed.
(* keys are only ever added: a key once trusted stays trusted, for all later operations and lists *)
Theorem C150_never_removed : forall C B root ops c x, cOk C root c -> In x (oTrust (cPool c)) -> In x (oTrust (cPool (crun C B root ops c))).
Proof.
  intros C B root ops. unfold crun. induction ops as [|o ops IH]; intros c x O I; cbn [fold_left]; [exact I|]. apply IH; [apply cstep_ok, O|].
  assert (VK : forall ans, In x (oTrust (cPool (snd (cVerifyKeys C root ans c))))).
  { intros ans. assert (AD : forall ks c, In x (oTrust (cPool c)) -> forall s, In x (oTrust (cPool (withPool (trustKeys ks (cPool c)) (withStore s c))))) by (intros ks c0 J s; apply (trustKeys_spec ks (cPool c0)); right; exact J).
    unfold cVerifyKeys. destruct (cOnline c); [|destruct (getVerifyKeys (cStore c)); apply AD, I]. destruct (getVerifyList C root ans); cbn [snd]; [apply AD, I| |exact I]. destruct (getVerifyKeys (cStore (withLast (Some e) c))). exact (AD l (withLast (Some e) c) I s). }
  assert (ST : forall c', sameTrust c c' -> In x (oTrust (cPool c'))) by (intros c' [T _]; rewrite T; exact I).
  destruct o; cbn [cstep].
  - destruct (goOnline_snd C root ans c) as [->| ->]; [apply VK|exact (VK ans)].
  - exact I.
  - apply VK.
  - destruct (cVerify C B e ans tok c) as [r c1] eqn:V. destruct (cVerify_ok _ _ _ _ _ _ _ _ _ O V) as (_ & _ & _ & T & _). cbn [snd]. rewrite T. exact I.
  - apply ST, (receive_keeps C B root), O.
  - apply ST, (wallet_keeps C B root), O.
  - unfold reissueAsk. destruct (protoReissue C B e old oldOwner newOwner params rnd rnd2 (cPool c)) as [r p] eqn:E. destruct O as [P S]. cbn [snd withPool cPool]. rewrite (proj2 (reissue_pool _ _ _ _ _ _ _ _ _ _ _ _ _ P E)). exact I.
  - apply ST, (done_keeps C B root), O.
Qed.
(* going online asks nobody: a client that is not online trusts afterwards what its store held, whatever the server would answer *)
Theorem C150_goonline : forall C root ans ans' c, cOnline c = false -> goOnline C root ans c = goOnline C root ans' c /\
  forall x, In x (oTrust (cPool (snd (goOnline C root ans c)))) <-> In x (kKeys (cacheOr (cStore c))) \/ In x (oTrust (cPool c)).
Proof.
  intros C root ans ans' c OFF. unfold goOnline, cVerifyKeys. rewrite OFF. split; [reflexivity|]. intros x. destruct (getVerifyKeys_spec (cStore c)) as (A & _). destruct (getVerifyKeys (cStore c)) as [ks s]. cbn [fst] in A. subst ks. cbn [snd withOnline withPool withStore cPool]. apply trustKeys_spec.
Qed.
(* an online client that gets no list reports it, keeps the list it has stored and trusts nothing new but the keys of that list *)
Theorem C150_failed : forall C root ans c s, cOnline c = true -> getVerifyList C root ans = Err s ->
  let (r, c') := cVerifyKeys C root ans c in r = Err errRetry /\ cLast c' = Some s /\ kKeys (cacheOr (cStore c')) = kKeys (cacheOr (cStore c)) /\ oKeys (cPool c') = oKeys (cPool c) /\
  forall x, In x (oTrust (cPool c')) <-> In x (kKeys (cacheOr (cStore c))) \/ In x (oTrust (cPool c)).
Proof.
  intros C root ans c s ON E. unfold cVerifyKeys. rewrite ON, E. cbn [withLast cStore]. destruct (getVerifyKeys_spec (cStore c)) as (A & B & _). destruct (getVerifyKeys (cStore c)) as [ks st]. cbn [fst snd] in A, B. subst ks. cbn [withPool withStore withLast cPool cStore cLast]. split; [reflexivity|]. split; [reflexivity|].
  split; [rewrite B; reflexivity|]. split; [|intros x; apply trustKeys_spec]. unfold trustKeys. generalize (cPool c). induction (kKeys (cacheOr (cStore c))) as [|k l IH]; intros p; cbn [fold_left]; [reflexivity|]. rewrite IH. reflexivity.
Qed.
(* the lookup server gives no list that the client accepts *)
Definition noList (C : Crypto) (root : option bytes) (o : cop) : Prop := match o with OKeys ans | OOnline ans => forall ks, getVerifyList C root ans <> Ok ks | _ => True end.
(* after a restart no signer is trusted and no issuer's key is known, whatever was stored before, until the lookup server has answered *)
Theorem C150_restart : forall C B root now now' files key s ops c, newClient C now files key (reopen now' s) = Ok c -> Forall (noList C root) ops ->
  oTrust (cPool (crun C B root ops c)) = [] /\ oKeys (cPool (crun C B root ops c)) = [].
Proof.
  intros C B root now now' files key s ops c NC F. assert (O : cOk C root c) by (eapply newClient_ok; [|exact NC]; reflexivity). apply newClient_spec in NC.
  assert (I0 : oTrust (cPool c) = [] /\ kKeys (cacheOr (cStore c)) = []) by (rewrite NC; split; reflexivity). clear NC.
  assert (G : cOk C root (crun C B root ops c) /\ oTrust (cPool (crun C B root ops c)) = []).
  { revert c O I0. unfold crun. induction F as [|o ops H F IH]; intros c O [T K]; cbn [fold_left]; [split; assumption|]. apply IH; [apply cstep_ok, O|].
    assert (VK : forall ans, (forall ks, getVerifyList C root ans <> Ok ks) -> oTrust (cPool (snd (cVerifyKeys C root ans c))) = [] /\ kKeys (cacheOr (cStore (snd (cVerifyKeys C root ans c)))) = []).
    { intros ans NL. assert (OFF : forall c, oTrust (cPool c) = [] -> kKeys (cacheOr (cStore c)) = [] -> let c' := (let (ks, s) := getVerifyKeys (cStore c) in withPool (trustKeys ks (cPool c)) (withStore s c)) in oTrust (cPool c') = [] /\ kKeys (cacheOr (cStore c')) = []).
      { intros c0 T0 K0. destruct (getVerifyKeys_spec (cStore c0)) as (A & A2 & _). destruct (getVerifyKeys (cStore c0)) as [ks s0]. cbn [fst snd] in A, A2. rewrite K0 in A. subst ks. split; [exact T0|]. cbn [withPool withStore cStore]. rewrite A2. exact K0. }
      unfold cVerifyKeys. destruct (cOnline c); [|exact (OFF c T K)]. destruct (getVerifyList C root ans) as [ks|s0|]; [exfalso; apply (NL ks); reflexivity|exact (OFF (withLast (Some s0) c) T K)|split; assumption]. }
    assert (ST : forall c', sameTrust c c' -> oTrust (cPool c') = [] /\ kKeys (cacheOr (cStore c')) = []) by (intros c' [T1 C1]; rewrite T1, C1; auto).
    destruct o; cbn [cstep]; cbn [noList] in H.
    - destruct (goOnline_snd C root ans c) as [->| ->]; [apply VK, H|exact (VK ans H)].
    - split; assumption.
    - apply VK, H.
    - destruct (cVerify C B e ans tok c) as [r c1] eqn:V. destruct (cVerify_ok _ _ _ _ _ _ _ _ _ O V) as (_ & S1 & _ & T1 & _). cbn [snd]. rewrite S1, T1. auto.
    - apply ST, (receive_keeps C B root), O.
    - apply ST, (wallet_keeps C B root), O.
    - unfold reissueAsk. destruct (protoReissue C B e old oldOwner newOwner params rnd rnd2 (cPool c)) as [r p] eqn:E. destruct O as [P S]. cbn [snd withPool cPool cStore]. rewrite (proj2 (reissue_pool _ _ _ _ _ _ _ _ _ _ _ _ _ P E)). auto.
    - apply ST, (done_keeps C B root), O. }
  destruct G as [[(_ & _ & K) _] T]. split; [exact T|]. set (c1 := crun C B root ops c) in *. clearbody c1. destruct (oKeys (cPool c1)) as [|[id k] m] eqn:M; [reflexivity|]. exfalso. destruct (K id k) as (_ & _ & I); [cbn [mget]; rewrite beq_refl; reflexivity|]. rewrite T in I. exact I.
Qed.
(* a world to run: keys, blind signatures and a client *)
Definition vkA : bytes := edpub toy (str "a").
Definition vkB : bytes := edpub toy (str "b").
(* an issuer's key signed with the private key [s] *)
Definition exIss (s : bytes) (x : N) (exp : Z) (usage : bytes) : pubKey :=
  let k := mkPK [] x 7 exp usage (edpub toy s) [] in let id := calcKeyID toy k in mkPK id x 7 exp usage (edpub toy s) (edsign toy s id).
(* blind signatures without blinding: the first coordinate of the signature must be that of the key *)
Definition exB : Blind := {|
  bParams := fun d => do l <- derUnmarshal [TOct; TOct; TBool] d; match l with [DOct k; DOct p; DBool c] => Ok (k, p, c) | _ => Panic end;
  bBlind := fun _ _ m rnd => Ok (rnd, m);
  bUnblind := fun _ _ _ sig => Ok (be_dec sig, 0, 0, 0);
  bVerify := fun k sg _ => let '(a, _, _, _) := sg in Ok (a =? fst k) |}.
Definition exWallet : bytes := repeat 3 32 ++ repeat 4 32.
Definition exNew : client := mkCl false exWallet (newPool clientGen) (mkStore emptyW None) None.
Definition exList (ks : list bytes) : rpc := exSigned (join (map hexenc ks)).
Definition exUp : list cop := [OOnline (Err "unreachable"); OKeys (exList [vkA; vkB])].
Definition exCl : client := Eval vm_compute in crun toy exB (Some exRoot) exUp exNew.
Definition exE : env := mkEnv 1000 None true None.
Definition exTokOf (k : pubKey) (owner : option bytes) (x : N) : bytes :=
  match newToken (pkID k) owner (repeat 8 48) with Some t => match tokenMarshal (addSignature x 0 0 0 t) with Some d => d | None => [] end | None => [] end.
Definition exAns (k : pubKey) : rpc := match keyMarshal k with Some d => Ok [(str "Key", JStr (b64enc d))] | None => Err "" end.
Definition kMsg : pubKey := Eval vm_compute in exIss (str "a") 5 2000 (str "Message").
Definition kAcc : pubKey := Eval vm_compute in exIss (str "b") 6 2000 (str "Account").
Example C150_ex : newClient toy 900 [] exWallet (mkStore emptyW None) = Ok exNew /\ exCl = crun toy exB (Some exRoot) exUp exNew /\ oTrust (cPool exCl) = [vkB; vkA] /\ cOnline exCl = true /\ fst (getVerifyKeys (cStore exCl)) = [vkA; vkB].
Proof. repeat split; vm_compute; reflexivity. Qed.
Example C150_failed_ex : cOnline exCl = true /\ getVerifyList toy (Some exRoot) (Err "unreachable"%string) = Err "unreachable"%string /\ oTrust (cPool (snd (cVerifyKeys toy (Some exRoot) (Err "unreachable"%string) exCl))) = [vkB; vkA; vkB; vkA].
Proof. repeat split; vm_compute; reflexivity. Qed.
(* a verification key that the root no longer lists stays trusted and keys signed with it are accepted; an old list replaces a newer one *)
Theorem C150_refuted :
  (let c := crun toy exB (Some exRoot) (exUp ++ [OKeys (exList [vkB])]) exNew in
    fst (getVerifyKeys (cStore c)) = [vkB] /\ In vkA (oTrust (cPool c)) /\ is_ok (fst (cVerify toy exB exE (exAns kMsg) (exTokOf kMsg None 5) c)) = true) /\
  (let c := crun toy exB (Some exRoot) [OOnline (Err "unreachable"); OKeys (exList [vkB]); OKeys (exList [vkA])] exNew in fst (getVerifyKeys (cStore c)) = [vkA]).
Proof. split; cbv zeta; [split; [vm_compute; reflexivity|]; split; [|vm_compute; reflexivity]|vm_compute; reflexivity]. assert (E : oTrust (cPool (crun toy exB (Some exRoot) (exUp ++ [OKeys (exList [vkB])]) exNew)) = [vkB; vkB; vkA]) by (vm_compute; reflexivity). rewrite E. right. right. left. reflexivity. Qed.

(* ---------------- C151: verified tokens ---------------- *)
(* Whatever happened before and whatever the lookup server answers: a token that Verify accepts bears a signature made with a key that
   has not expired, was signed by a listed key, and is the key that the token names if the client is offline.
   Missing: online it need not be the key that the token names, see C151_refuted. *)
Theorem C151_chain_partial : forall C B root now files key s c0 ops e ans tok te c', stCache s = None -> newClient C now files key s = Ok c0 ->
  let c := crun C B root ops c0 in
  cVerify C B e ans tok c = (Ok te, c') ->
  exists t k, accepted C B root (eNow e) tok te t k /\ (cOnline c = false -> pkID k = takeN 32 (kID t ++ repeat 0 32)).
Proof.
  intros C B root now files key s c0 ops e ans tok te c' SC NC c V. destruct (cVerify_ok C B root e ans tok c (Ok te) c' (crun_ok C B root ops c0 (newClient_ok _ _ _ _ _ _ root SC NC)) V) as (_ & _ & _ & _ & H). exact (H te eq_refl).
Qed.
(* the lookup server answers with the key of another usage: the token is verified with it and is entered for that usage *)
Definition orElse {A} (d : A) (r : res A) : A := match r with Ok a => a | _ => d end.
Definition noTok : token := mkTok [] false [] [] [] [] [] [].
Definition noTE : tokenEntry := mkTE [] [] None None None false false [] 0 None None None None.
Theorem C151_refuted : exists t te c', tokenUnmarshal (exTokOf kMsg None 6) = Ok t /\ kID t = pkID kMsg /\ pkID kMsg <> pkID kAcc /\
  cVerify toy exB exE (exAns kAcc) (exTokOf kMsg None 6) exCl = (Ok te, c') /\ tUsage te = str "Account" /\ mget (kID t) (oKeys (cPool c')) = None /\
  fst (cVerify toy exB exE (exAns kMsg) (exTokOf kMsg None 6) exCl) = Err errFinal.
Proof.
  exists (orElse noTok (tokenUnmarshal (exTokOf kMsg None 6))), (orElse noTE (fst (cVerify toy exB exE (exAns kAcc) (exTokOf kMsg None 6) exCl))), (snd (cVerify toy exB exE (exAns kAcc) (exTokOf kMsg None 6) exCl)).
  do 2 (split; [vm_compute; reflexivity|]). split; [vm_compute; discriminate|]. repeat split; vm_compute; reflexivity.
Qed.
Example C151_ex : (exists te c', cVerify toy exB exE (exAns kMsg) (exTokOf kMsg (Some (repeat 4 32)) 5) exCl = (Ok te, c') /\ tUsage te = str "Message" /\ tExpire te = 2000%Z /\ tPub te = Some (repeat 4 32) /\ mget (pkID kMsg) (oKeys (cPool c')) = Some kMsg) /\
  fst (cVerify toy exB (mkEnv 2001 None true None) (exAns kMsg) (exTokOf kMsg None 5) exCl) = Err errFatal /\
  fst (cVerify toy exB exE (exAns (exIss (str "c") 5 2000 (str "Message"))) (exTokOf kMsg None 5) exCl) = Err errFatal /\
  fst (cVerify toy exB exE (exAns kMsg) (exTokOf kMsg None 5) (goOffline exCl)) = Err errOffline.
Proof.
  split; [exists (orElse noTE (fst (cVerify toy exB exE (exAns kMsg) (exTokOf kMsg (Some (repeat 4 32)) 5) exCl))), (snd (cVerify toy exB exE (exAns kMsg) (exTokOf kMsg (Some (repeat 4 32)) 5) exCl)); repeat split; vm_compute; reflexivity|]. repeat split; vm_compute; reflexivity.
Qed.

(* ---------------- C152: received tokens ---------------- *)
Lemma lenN_arrN n b : lenN (arrN n b) = n.
Proof. unfold arrN. rewrite lenN_takeN, lenN_app, Base.lenN_repeat. lia. Qed.
Lemma wfb_arrN n b : wfb b -> wfb (arrN n b).
Proof. intros W. unfold arrN. apply wfb_takeN, wfb_app. split; [exact W|apply wfb_repeat; reflexivity]. Qed.
Definition ownKey (c : client) : bytes := takeN 32 (dropN 32 (cKey c) ++ repeat 0 32).
Lemma accepted_valid C B root now tok te t k c : accepted C B root now tok te t k -> wfb tok -> wfb (cKey c) -> tPub te = Some (ownKey c) -> valid te /\ norm te = te.
Proof.
  intros (_ & _ & _ & _ & TE) W WK P. rewrite TE in *. cbn [tPub] in P. destruct (kFlag t); [|discriminate P]. split; [|reflexivity]. unfold valid. cbn [tHash tToken tPub tPriv tNewPub tNewPriv tParams tPacket tBlind isArr small]. assert (P' : takeN 32 (kOwner t ++ repeat 0 32) = ownKey c) by congruence. rewrite P'.
  split; [apply sha256_wf|]. split; [exact W|]. split; [discriminate|]. split; [|auto 8]. split; [exact (lenN_arrN 32 _)|]. apply (wfb_arrN 32), wfb_dropN, WK.
Qed.
(* ReceiveToken succeeds: the token was accepted as in C151, has the usage asked for, belongs to the wallet, was not in the wallet and is now *)
Theorem C152_received : forall C B root e ans usage tok c c', cOk C root c -> good (stDB (cStore c)) -> wfb tok -> wfb (cKey c) -> receiveToken C B e ans usage tok c = (Ok tt, c') ->
  exists t k te, accepted C B root (eNow e) tok te t k /\ pkUsage k = usage /\ kFlag t = true /\ takeN 32 (kOwner t ++ repeat 0 32) = ownKey c /\
    (forall te', getToken (sha256 C (tokenImage t)) (-1) (stDB (cStore c)) <> Ok te') /\ getToken (sha256 C (tokenImage t)) (-1) (stDB (cStore c')) = Ok te /\
    (forall h, wfb h -> h <> sha256 C (tokenImage t) -> getToken h (-1) (stDB (cStore c')) = getToken h (-1) (stDB (cStore c))) /\ good (stDB (cStore c')).
Proof.
  intros C B root e ans usage tok c c' O G W WK E. unfold receiveToken in E. destruct (cVerify C B e ans tok c) as [r c0] eqn:V. destruct (cVerify_ok _ _ _ _ _ _ _ _ _ O V) as (_ & S0 & K0 & _ & H). destruct r as [te|s|]; [|discriminate E|discriminate E].
  destruct (H te eq_refl) as (t & k & A & _). destruct (beq (tUsage te) usage) eqn:BU; cbn [negb] in E; [|discriminate E]. apply beq_spec in BU. destruct (tPub te) as [o|] eqn:P; [|discriminate E]. destruct (beq o (walletPub c0)) eqn:BO; cbn [negb] in E; [|discriminate E]. apply beq_spec in BO.
  assert (WP : walletPub c0 = ownKey c) by (unfold walletPub, ownKey; rewrite K0; reflexivity). rewrite WP in BO. subst o. rewrite S0 in E. destruct (accepted_valid _ _ _ _ _ _ _ _ c A W WK P) as [VA NO].
  assert (TH : tHash te = sha256 C (tokenImage t)) by (destruct A as (_ & _ & _ & _ & ->); reflexivity). rewrite TH in E. destruct (getToken (sha256 C (tokenImage t)) (-1) (stDB (cStore c))) as [x|s|] eqn:GT; [discriminate E| |discriminate E].
  destruct (encode_ok te VA) as (g & st & EN). assert (ST : setToken te (stDB (cStore c)) = Ok (wstep (stDB (cStore c)) (WSet te))) by (cbn [wstep]; unfold setToken; rewrite EN; reflexivity). rewrite ST in E. apply pairEq in E as [_ <-]. cbn [withStore cStore stDB].
  exists t, k, te. split; [exact A|]. split; [destruct A as (_ & _ & _ & _ & TE); rewrite TE in BU; exact BU|]. assert (FO : kFlag t = true /\ takeN 32 (kOwner t ++ repeat 0 32) = ownKey c). { destruct A as (_ & _ & _ & _ & TE). rewrite TE in P. cbn [tPub] in P. destruct (kFlag t); [|discriminate P]. split; [reflexivity|congruence]. }
  split; [apply FO|]. split; [apply FO|]. split; [intros te0; rewrite GT; discriminate|]. split; [|split].
  - rewrite get_set by (auto using sha256_wf). rewrite TH, beq_refl, NO. reflexivity.
  - intros h WH NE. rewrite get_set by auto. rewrite TH. destruct (beq (sha256 C (tokenImage t)) h) eqn:BH; [apply beq_spec in BH; congruence|reflexivity].
  - apply good_step; [exact VA|exact G].
Qed.
(* a refused token leaves the wallet as it is *)
Theorem C152_refused : forall C B root e ans usage tok c c' s, cOk C root c -> receiveToken C B e ans usage tok c = (Err s, c') -> cStore c' = cStore c.
Proof.
  intros C B root e ans usage tok c c' s O E. unfold receiveToken in E. destruct (cVerify C B e ans tok c) as [r c0] eqn:V. destruct (cVerify_ok _ _ _ _ _ _ _ _ _ O V) as (_ & S0 & _). destruct r as [te|s0|]; [|apply pairEq in E as [_ <-]; exact S0|discriminate E].
  destruct (negb (beq (tUsage te) usage)); [apply pairEq in E as [_ <-]; exact S0|]. destruct (tPub te) as [o|]; [|discriminate E]. destruct (negb (beq o (walletPub c0))); [apply pairEq in E as [_ <-]; exact S0|].
  destruct (getToken (tHash te) (-1) (stDB (cStore c0))); [apply pairEq in E as [_ <-]; exact S0| |discriminate E]. destruct (setToken te (stDB (cStore c0))); discriminate E.
Qed.
(* the same token is not received again while it is in the wallet *)
Theorem C152_once : forall C B root e ans usage tok c c' e' ans' usage', cOk C root c -> good (stDB (cStore c)) -> wfb tok -> wfb (cKey c) -> receiveToken C B e ans usage tok c = (Ok tt, c') ->
  fst (receiveToken C B e' ans' usage' tok c') <> Ok tt.
Proof.
  intros C B root e ans usage tok c c' e' ans' usage' O G W WK E E'. assert (O' : cOk C root c'). { pose proof (proj1 (receive_keeps C B root e ans usage tok c O)) as H. rewrite E in H. exact H. }
  destruct (C152_received _ _ _ _ _ _ _ _ _ O G W WK E) as (t & k & te & A & _ & _ & _ & _ & GT & _ & G').
  destruct (receiveToken C B e' ans' usage' tok c') as [r c2] eqn:E2. cbn [fst] in E'. subst r. assert (WK' : wfb (cKey c')). { clear E2. unfold receiveToken in E. destruct (cVerify C B e ans tok c) as [r c0] eqn:V. destruct (cVerify_ok _ _ _ _ _ _ _ _ _ O V) as (_ & _ & K0 & _). destruct r as [te0|s|]; [|discriminate E|discriminate E]. destruct (negb (beq (tUsage te0) usage)); [discriminate E|].
    destruct (tPub te0); [|discriminate E]. destruct (negb (beq b (walletPub c0))); [discriminate E|]. destruct (getToken (tHash te0) (-1) (stDB (cStore c0))); [discriminate E| |discriminate E]. destruct (setToken te0 (stDB (cStore c0))); apply pairEq in E as [E0 <-]; try discriminate E0; cbn [withStore cKey]; rewrite K0; exact WK. }
  destruct (C152_received _ _ _ _ _ _ _ _ _ O' G' W WK' E2) as (t2 & k2 & te2 & A2 & _ & _ & _ & NG & _). destruct A as (U & _). destruct A2 as (U2 & _). assert (t2 = t) as -> by congruence. exact (NG te GT).
Qed.
(* a token without an owner that is otherwise good crashes the client *)
Theorem C152_ownerless : forall C B e ans usage tok c te c', cVerify C B e ans tok c = (Ok te, c') -> tUsage te = usage -> tPub te = None -> receiveToken C B e ans usage tok c = (Panic, c').
Proof. intros C B e ans usage tok c te c' V U P. unfold receiveToken. rewrite V, U, beq_refl, P. reflexivity. Qed.
(* a received token is entered without the wallet's private key: it can never be reissued *)
Theorem C152_not_reissued : forall C B root e ans usage tok c c' owner now re, cOk C root c -> good (stDB (cStore c)) -> wfb tok -> wfb (cKey c) -> receiveToken C B e ans usage tok c = (Ok tt, c') ->
  exists t s, tokenUnmarshal tok = Ok t /\ snd (reissueToken (sha256 C (tokenImage t)) owner now re (stDB (cStore c'))) = Err s /\ (freshId (reID re) (stDB (cStore c')) -> (reID re <> 0)%Z -> reOnline re = true -> s = errFatal).
Proof.
  intros C B root e ans usage tok c c' owner now re O G W WK E. destruct (C152_received _ _ _ _ _ _ _ _ _ O G W WK E) as (t & k & te & A & _ & _ & _ & _ & GT & _ & G'). set (h := sha256 C (tokenImage t)) in *. set (db := stDB (cStore c')) in *.
  assert (WH : wfb h) by apply sha256_wf. assert (TP : tPriv te = None) by (destruct A as (_ & _ & _ & _ & ->); reflexivity). exists t.
  assert (X : exists s, snd (reissueToken h owner now re db) = Err s /\ (freshId (reID re) db -> (reID re <> 0)%Z -> reOnline re = true -> s = errFatal)); [|destruct X as (s & X1 & X2); exists s; split; [apply A|split; [exact X1|exact X2]]]. clearbody h db. clear A.
  unfold reissueToken. destruct (reOnline re); cbn [negb]; [|eexists; split; [reflexivity|discriminate]]. destruct (lockToken h (reID re) now db) as [l db1] eqn:L. assert (LL : l = reID re \/ l = (-1)%Z) by (unfold lockToken in L; destruct (thas _ _); apply pairEq in L as [<- _]; auto).
  destruct (Z.eqb_spec l 0) as [Z0|Z0]; [eexists; split; [reflexivity|intros _ NZ; lia]|]. assert (Q : getToken h l db1 = Ok te \/ getToken h l db1 = Err errLocked /\ ~ freshId (reID re) db).
  { assert (G1 : good db1) by (replace db1 with (snd (lockToken h (reID re) now db)) by (rewrite L; reflexivity); apply good_lockToken, G').
    assert (GT1 : getToken h (-1) db1 = Ok te). { rewrite <- GT. replace db1 with (wstep db (WLock h (reID re) now)) by (cbn [wstep]; rewrite L; reflexivity). apply get_lock; [exact G'|exact WH|exact Logic.I]. }
    destruct (row_or_none db1 h) as [(i & r & I & EH)|N0]; [|rewrite getToken_none in GT1 by exact N0; discriminate GT1]. destruct (gd_rows _ G1 _ _ I) as [t0 R]. rewrite (getToken_row db1 i r t0 h (-1) G1 I R WH EH) in GT1. cbn [Z.leb Z.compare andb] in GT1.
    rewrite (getToken_row db1 i r t0 h l G1 I R WH EH). rewrite GT1. destruct ((0 <=? l)%Z && negb (wLock r =? 0)%Z && negb (wLock r =? l)%Z) eqn:LK; [|auto]. right. split; [reflexivity|]. intros F. pose proof L as L0. unfold lockToken in L. destruct (thas (lockable (hexenc h) (reID re)) (wTok db)) eqn:TH; apply pairEq in L as [<- <-]; [|discriminate LK].
    cbn [wTok] in I. apply In_tupd in I as [[j q] [J JQ]]. cbn [fst snd] in JQ. destruct (lockable (hexenc h) (reID re) j q) eqn:LB; assert (RQ : r = snd (i, r)) by reflexivity; rewrite JQ in RQ; cbn [snd] in RQ.
    - rewrite RQ in LK. cbn [setLock wLock] in LK. rewrite Z.eqb_refl, andb_false_r in LK. discriminate LK.
    - subst r. apply thas_true in TH as [[j2 q2] [J2 B2]]. cbn [fst snd] in B2. unfold lockable in B2. apply orb_true_iff in B2 as [B2|B2]; [|apply Z.eqb_eq in B2; exact (F _ _ J2 B2)]. apply andb_true_iff in B2 as [B2 B3]. apply beq_spec in B2.
      assert (JJ : (j2, q2) = (j, q)) by (apply (row_unique db); [exact G'|exact J2|exact J|congruence]). apply pairEq in JJ as [-> ->]. rewrite B3 in LK. rewrite andb_false_r in LK. discriminate LK. }
  destruct Q as [Q|[Q NF]]; rewrite Q; [rewrite TP; eexists; split; reflexivity|]. eexists; split; [reflexivity|]. intros F. contradiction.
Qed.
(* what the wallet spends: a token entered without a private key is never found by FindToken and not counted by GetBalanceOwn *)
Example C152_ex : let tok := exTokOf kMsg (Some (repeat 4 32)) 5 in let rc := receiveToken toy exB exE (exAns kMsg) (str "Message") tok exCl in
  fst rc = Ok tt /\ getBalance (str "Message") None (stDB (cStore (snd rc))) = 1 /\ getBalanceOwn (str "Message") (stDB (cStore (snd rc))) = 0 /\
  fst (receiveToken toy exB exE (exAns kMsg) (str "Message") tok (snd rc)) = Err errFinal /\
  fst (receiveToken toy exB exE (exAns kMsg) (str "Account") tok exCl) = Err errFinal /\
  fst (receiveToken toy exB exE (exAns kMsg) (str "Message") (exTokOf kMsg (Some (repeat 5 32)) 5) exCl) = Err errFinal.
Proof. cbv zeta. repeat split; vm_compute; reflexivity. Qed.
(* a good token without an owner crashes ReceiveToken; a token that was spent and removed is received again *)
Theorem C152_refuted : fst (receiveToken toy exB exE (exAns kMsg) (str "Message") (exTokOf kMsg None 5) exCl) = Panic /\
  (let tok := exTokOf kMsg (Some (repeat 4 32)) 5 in let rc := receiveToken toy exB exE (exAns kMsg) (str "Message") tok exCl in
   let h := tokenHash toy (orElse noTok (tokenUnmarshal tok)) in
   let c := withStore (mkStore (delToken h (stDB (cStore (snd rc)))) (stCache (cStore (snd rc)))) (snd rc) in
   is_ok (getToken h (-1) (stDB (cStore (snd rc)))) = true /\ fst rc = Ok tt /\ fst (receiveToken toy exB exE (exAns kMsg) (str "Message") tok c) = Ok tt).
Proof. cbv zeta. repeat split; vm_compute; reflexivity. Qed.

(* ---------------- C153: are the tokens of the wallet good? ---------------- *)
Definition exUsed (k : pubKey) : bytes := match keyMarshal k with Some d => d | None => [] end.
(* the private part that Reissue would have returned for a new token of [k] for the owner *)
Definition exPrivPart (k : pubKey) (owner : bytes) : bytes :=
  match newToken (pkID k) (Some owner) (repeat 8 48) with
  | Some t => match tokenMarshal t with Some d => match privMarshal (mkPriv (exUsed k) [] d [] [] true) with Some b => b | None => [] end | None => [] end
  | None => [] end.
Definition exOld : tokenEntry := mkTE (repeat 1 32) [9] (Some [1]) (Some (repeat 4 32)) (Some exWallet) true true (str "Message") 2000 (Some [1]) (Some [1]) (Some (repeat 4 32)) (Some exWallet).
(* WalletToken stores a token whose signature is wrong, Reissue one whose unblinded signature is wrong: both are found in the wallet, and
   Verify of the client refuses both *)
Theorem C153_refuted :
  (let tok := exTokOf kMsg (Some (repeat 4 32)) 77 in let w := walletToken toy exB exE None (tok, [], exUsed kMsg) exCl in
   let h := tokenHash toy (orElse noTok (tokenUnmarshal tok)) in
   fst w = Ok (h, true) /\ (let te := orElse noTE (getToken h (-1) (stDB (cStore (snd w)))) in tToken te = tok /\ fst (cVerify toy exB exE (exAns kMsg) (tToken te) (snd w)) = Err errFinal)) /\
  (let d := reissueDone toy exB exE exOld (exPrivPart kMsg (repeat 4 32)) [77] (exUsed kMsg) exCl in
   let h := orElse [] (fst d) in
   is_ok (fst d) = true /\ (let te := orElse noTE (getToken h (-1) (stDB (cStore (snd d)))) in tToken te <> [] /\ fst (cVerify toy exB exE (exAns kMsg) (tToken te) (snd d)) = Err errFinal)).
Proof. cbv zeta. split; [split; [vm_compute; reflexivity|split; vm_compute; reflexivity]|]. split; [vm_compute; reflexivity|]. split; [vm_compute; discriminate|vm_compute; reflexivity]. Qed.
(* with the right signature (5 is the coordinate of kMsg) the token is good *)
Example C153_ex : let d := reissueDone toy exB exE exOld (exPrivPart kMsg (repeat 4 32)) [5] (exUsed kMsg) exCl in let te := orElse noTE (getToken (orElse [] (fst d)) (-1) (stDB (cStore (snd d)))) in
  is_ok (fst d) = true /\ tUsage te = str "Message" /\ tPub te = Some (repeat 4 32) /\ is_ok (fst (cVerify toy exB exE (exAns kMsg) (tToken te) (snd d))) = true.
Proof. cbv zeta. repeat split; vm_compute; reflexivity. Qed.
Lemma good_del h db : wfb h -> good db -> good (delToken h db).
Proof. intros W G. exact (good_step db (WDel h) W G). Qed.
(* the token that is made of the issuer's reply bears the unblinded signature and is otherwise the token prepared; if the signature is
   good under the key of the parameters then Verify will find it good *)
Lemma encFields_oct b l e : encFields l = Some e -> In (DOct b) l -> lenN b <= lenN e.
Proof.
  revert e. induction l as [|v l IH]; intros e E I; [destruct I|]. cbn [encFields] in E. destruct (encField v) as [a|] eqn:A; [|discriminate E]. destruct (encFields l) as [c|]; [|discriminate E]. assert (e = a ++ c) as -> by congruence. rewrite lenN_app.
  destruct I as [->|I]; [|specialize (IH c eq_refl I); lia]. cbn [encField] in A. assert (a = tlv 4 b) as -> by congruence. unfold tlv. rewrite lenN_cons, lenN_app. lia.
Qed.
Lemma token_small t d : tokenMarshal t = Some d -> lenN d < 2 ^ 31 -> smallT t.
Proof.
  unfold tokenMarshal, derMarshal. destruct (encFields _) as [e|] eqn:E; [|discriminate]. intros D L. assert (d = tlv 48 e) as -> by congruence. unfold tlv in L. rewrite lenN_cons, lenN_app in L.
  unfold smallT. apply Forall_forall. intros b I. enough (lenN b <= lenN e) by lia. apply (encFields_oct b _ _ E). cbn [In] in I |- *. intuition (subst; auto 10).
Qed.
Theorem C153_signature : forall C B v reply tok, unblind C B v reply = Ok tok -> lenN tok < 2 ^ 31 ->
  exists k t t' sg ok, keyUnmarshal (vKey v) = Ok k /\ tokenUnmarshal (vToken v) = Ok t /\ bUnblind B (pkX k, pkY k) (vFactors v) (sha256 C (tokenImage t)) reply = Ok sg /\ bVerify B (pkX k, pkY k) sg (sha256 C (tokenImage t)) = Ok ok /\
    tokenUnmarshal tok = Ok t' /\ tokenImage t' = tokenImage t /\ getSignature t' = sg /\ bVerify B (pkX k, pkY k) (getSignature t') (sha256 C (tokenImage t')) = Ok ok.
Proof.
  intros C B v reply tok E LT. unfold unblind in E. destruct (keyUnmarshal (vKey v)) as [k|s|]; cbn [rbind] in E; [|discriminate E|discriminate E]. destruct (tokenUnmarshal (vToken v)) as [t|s|]; cbn [rbind] in E; [|discriminate E|discriminate E].
  destruct (bUnblind B (pkPoint k) (vFactors v) (tokenHash C t) reply) as [[[[x y] r] s]|e|] eqn:U; cbn [rbind] in E; [|discriminate E|discriminate E]. destruct (bVerify B (pkPoint k) (x, y, r, s) (tokenHash C t)) as [ok|e|] eqn:V; cbn [rbind] in E; [|discriminate E|discriminate E].
  destruct (tokenMarshal (addSignature x y r s t)) as [d|] eqn:M; cbn [optRes] in E; [|discriminate E]. assert (d = tok) as -> by congruence. clear E.
  exists k, t, (addSignature x y r s t), (x, y, r, s), ok. split; [reflexivity|]. split; [reflexivity|]. split; [exact U|]. split; [exact V|]. split; [rewrite <- (app_nil_r tok); apply C94_codec; [exact M|exact LT|exact (token_small _ _ M LT)]|]. split; [reflexivity|].
  assert (G : getSignature (addSignature x y r s t) = (x, y, r, s)) by (unfold getSignature, addSignature; cbn [kRX kRY kS kR]; rewrite !bigBytes_dec; reflexivity). split; [exact G|]. rewrite G. exact V.
Qed.
Example C153_signature_ex : match privUnmarshal (exPrivPart kMsg (repeat 4 32)) with Ok v => match unblind toy exB v [5] with Ok tok => (lenN tok <? 1000) && match tokenUnmarshal tok with Ok t => be_dec (kRX t) =? 5 | _ => false end | _ => false end | _ => false end = true.
Proof. vm_compute. reflexivity. Qed.
(* What Reissue stores: the token prepared before, with the usage and the expiry of the key that it names, which has not expired and was signed
   by a listed key; the owner is the new owner; the old token is gone and nothing else has changed.
   Missing: that the signature is good, see C153_refuted. *)
Theorem C153_reissued_partial : forall C B root e te blind reply used c h c', cOk C root c -> good (stDB (cStore c)) -> wfb (tHash te) -> isArr 32 (tNewPub te) -> isArr 64 (tNewPriv te) -> tNewPub te <> None ->
  (forall v tok, privUnmarshal blind = Ok v -> unblind C B v reply = Ok tok -> wfb tok) ->
  reissueDone C B e te blind reply used c = (Ok h, c') ->
  exists v tok t k te', privUnmarshal blind = Ok v /\ unblind C B v reply = Ok tok /\ tokenUnmarshal tok = Ok t /\ h = sha256 C (tokenImage t) /\
    keyOk C root k /\ pkID k = takeN 32 (kID t ++ repeat 0 32) /\ (eNow e <= pkExp k)%Z /\
    getToken h (-1) (stDB (cStore c')) = Ok te' /\ tToken te' = tok /\ tUsage te' = pkUsage k /\ tExpire te' = pkExp k /\ tPub te' = tNewPub te /\ tPriv te' = tNewPriv te /\
    (tHash te <> h -> forall x, getToken (tHash te) (-1) (stDB (cStore c')) <> Ok x) /\
    forall h', wfb h' -> h' <> h -> h' <> tHash te -> getToken h' (-1) (stDB (cStore c')) = getToken h' (-1) (stDB (cStore c)).
Proof.
  intros C B root e te blind reply used c h c' O0 G0 WH AP AK NP WT E. unfold reissueDone in E. cbv zeta in E. set (db0 := delToken (tHash te) (stDB (cStore c))) in *.
  assert (G : good db0) by (apply good_del; assumption). assert (D1 : forall l x, getToken (tHash te) l db0 = Ok x -> False). { intros l x H. pose proof (del_same (stDB (cStore c)) (tHash te)) as DS. fold db0 in DS. destruct (row_or_none db0 (tHash te)) as [(i & r & I & EH)|N0].
    - destruct (gd_rows _ G _ _ I) as [t0 R]. rewrite (getToken_row db0 i r t0 (tHash te) (-1) G I R WH EH) in DS. discriminate DS.
    - rewrite getToken_none in H by exact N0. discriminate H. }
  assert (D2 : forall h', wfb h' -> h' <> tHash te -> getToken h' (-1) db0 = getToken h' (-1) (stDB (cStore c))). { intros h' W' N'. pose proof (get_dels [tHash te] (stDB (cStore c)) h' G0 ltac:(repeat constructor; exact WH) W') as H. cbn [fold_left] in H. apply H. intros [Q|[]]. congruence. }
  set (c1 := withStore (mkStore db0 (stCache (cStore c))) c) in *. assert (O : cOk C root c1) by (apply cOk_store, O0). assert (S1 : stDB (cStore c1) = db0) by reflexivity. clearbody c1 db0.
  destruct (keyUnmarshal used) as [k0|s|]; [|discriminate E|discriminate E]. destruct (loadKey C (eNow e) k0 (cPool c1)) as [r p] eqn:L. destruct O as [P S]. destruct (load_ok _ _ _ _ _ _ _ P L) as (PO & _ & _).
  assert (E' : match (do v <- privUnmarshal blind; unblind C B v reply) with
      | Err s => (Err errFatal, withLast (Some s) (withPool p c1))
      | Panic => (Panic, withPool p c1)
      | Ok tok =>
        match tokenUnmarshal tok with
        | Err s => (Err errFatal, withLast (Some s) (withPool p c1))
        | Panic => (Panic, withPool p c1)
        | Ok t =>
          match lookupKey C e (fst (tokenProps t)) (cPool (withPool p c1)) with
          | (Err s, p) => (Err errFatal, withLast (Some s) (withPool p (withPool p c1)))
          | (Panic, p) => (Panic, withPool p (withPool p c1))
          | (Ok nk, p2) =>
            let c := withPool p2 (withPool p c1) in
            let new := mkTE (tokenHash C t) tok None (tNewPub te) (tNewPriv te) (tRenew te) (tRenew te) (pkUsage nk) (pkExp nk) None None None None in
            match setToken new (stDB (cStore c)) with
            | Err s => (Err errFatal, withLast (Some s) c)
            | Panic => (Panic, c)
            | Ok db => (Ok (tHash new), withStore (mkStore db (stCache (cStore c))) c)
            end
          end
        end
      end = (Ok h, c')).
  { destruct r as [x|s|]; [|destruct (String.eqb s errExists); [|discriminate E]|discriminate E].
    all: destruct (do v <- privUnmarshal blind; unblind C B v reply) as [tok|s0|]; [|discriminate E|discriminate E]; destruct (tokenUnmarshal tok) as [t|s0|]; [|discriminate E|discriminate E]; destruct (lookupKey C e (fst (tokenProps t)) (cPool (withPool p c1))) as [[nk|s0|] p2]; [exact E|discriminate E|discriminate E]. }
  clear E. destruct (do v <- privUnmarshal blind; unblind C B v reply) as [tok|s0|] eqn:UB; [|discriminate E'|discriminate E']. destruct (tokenUnmarshal tok) as [t|s0|] eqn:UT; [|discriminate E'|discriminate E'].
  destruct (lookupKey C e (fst (tokenProps t)) (cPool (withPool p c1))) as [[nk|s0|] p2] eqn:LK; [|discriminate E'|discriminate E']. destruct (lookup_ok _ _ _ _ _ _ _ PO LK) as (_ & _ & KO). destruct (KO nk eq_refl) as (K1 & K2 & K3). cbv zeta in E'. clear KO.
  destruct (privUnmarshal blind) as [v|s0|] eqn:UP; cbn [rbind] in UB; [|discriminate UB|discriminate UB]. pose proof (WT v tok eq_refl UB) as W.
  set (new := mkTE (tokenHash C t) tok None (tNewPub te) (tNewPriv te) (tRenew te) (tRenew te) (pkUsage nk) (pkExp nk) None None None None) in *. assert (VN : valid new). { unfold valid, new. cbn [tHash tToken tPub tPriv tNewPub tNewPriv tParams tPacket tBlind isArr small]. split; [apply sha256_wf|]. split; [exact W|]. auto 8. }
  change (stDB (cStore (withPool p2 (withPool p c1)))) with (stDB (cStore c1)) in E'. rewrite S1 in E'. destruct (encode_ok new VN) as (g & st & EN). assert (ST : setToken new db0 = Ok (wstep db0 (WSet new))) by (cbn [wstep]; unfold setToken; rewrite EN; reflexivity). rewrite ST in E'. apply pairEq in E' as [EH EC].
  assert (HH : h = sha256 C (tokenImage t)) by (symmetry; unfold new in EH; cbn [tHash] in EH; unfold tokenHash in EH; congruence). rewrite <- EC. cbn [withStore cStore stDB]. clear EC c'.
  assert (GS : forall x, wfb x -> getToken x (-1) (wstep db0 (WSet new)) = if beq h x then Ok new else getToken x (-1) db0). { intros x WX. rewrite get_set by auto. change (tHash new) with (sha256 C (tokenImage t)). rewrite <- HH. reflexivity. }
  exists v, tok, t, nk, new. split; [reflexivity|]. split; [exact UB|]. split; [exact UT|]. split; [exact HH|]. split; [exact K1|]. split; [exact K2|]. split; [exact K3|]. split; [rewrite GS, beq_refl by (rewrite HH; apply sha256_wf); reflexivity|]. do 5 (split; [reflexivity|]). split.
  - intros NE x H. rewrite GS in H by exact WH. destruct (beq h (tHash te)) eqn:Q; [apply beq_spec in Q; congruence|]. exact (D1 _ _ H).
  - intros h' W' N1 N2. rewrite GS by exact W'. destruct (beq h h') eqn:Q; [apply beq_spec in Q; congruence|]. apply D2; assumption.
Qed.

(* ---------------- C154: the request for a new token ---------------- *)
(* The packet that Reissue sends and the private part it keeps.  The new key has the usage and the signer of the key that the old token names, both
   are signed by a listed key and have not expired; the new token names the new key and the new owner; the packet asks for that token to be signed
   and the issuer accepts the owner's signature under it.  Missing: tokens without an owner, see C154_ownerless. *)
Theorem C154_request_partial : forall C B root e old oldOwner newOwner params rnd rnd2 p req v p', pOk C root p -> (forall o, newOwner = Some o -> lenN o = 32) ->
  protoReissue C B e old oldOwner newOwner params rnd rnd2 p = (Ok (req, v), p') ->
  exists t ok k kd pub can t' msg tokM sig,
    tokenUnmarshal old = Ok t /\ bParams B params = Ok (kd, pub, can) /\ keyUnmarshal kd = Ok k /\
    keyOk C root ok /\ pkID ok = takeN 32 (kID t ++ repeat 0 32) /\ (eNow e <= pkExp ok)%Z /\
    keyOk C root k /\ (eNow e <= pkExp k)%Z /\ pkUsage k = pkUsage ok /\ pkSigner k = pkSigner ok /\
    tokenProps t' = (pkID k, newOwner) /\ bBlind B (pkX k, pkY k) pub (sha256 C (tokenImage t')) rnd2 = Ok (vFactors v, msg) /\ tokenMarshal t' = Some (vToken v) /\ keyMarshal k = Some (vKey v) /\
    tokenMarshal t = Some tokM /\ reissueMarshal (mkRe 0 tokM msg params) sig = Some req /\ vReq v = req /\
    (kFlag t = true -> exists priv, oldOwner = Some priv /\ packetVerify C (reissueImage C (mkRe 0 tokM msg params)) sig (Some (edpub C priv)) = Ok tt).
Proof.
  intros C B root e old oldOwner newOwner params rnd rnd2 p req v p' O LO E. unfold protoReissue in E. destruct (tokenUnmarshal old) as [t|s|] eqn:U; [|discriminate E|discriminate E].
  unfold unmarshalParams in E. destruct (bParams B params) as [[[kd pub] can]|s|] eqn:BP; cbn [rbind] in E; [|discriminate E|discriminate E]. destruct (keyUnmarshal kd) as [k|s|] eqn:UK; cbn [rbind] in E; [|discriminate E|discriminate E].
  destruct (lookupKey C e (arrN 32 (kID t)) p) as [[ok|s|] p1] eqn:L; [|discriminate E|discriminate E]. destruct (lookup_ok _ _ _ _ _ _ _ O L) as (O1 & _ & KO). destruct (KO ok eq_refl) as (K1 & K2 & K3).
  destruct (beq (pkUsage ok) (pkUsage k)) eqn:BU; cbn [negb] in E; [|discriminate E]. destruct (beq (pkSigner ok) (pkSigner k)) eqn:BS; cbn [negb] in E; [|discriminate E]. apply beq_spec in BU, BS.
  destruct (loadKey C (eNow e) k p1) as [r p2] eqn:LD. destruct (load_ok _ _ _ _ _ _ _ O1 LD) as (_ & _ & KN). pose proof (load_res _ _ _ _ _ _ LD) as LR. cbv zeta in E.
  match type of E with match r with Ok _ => (?G, p2) | Err _ => _ | Panic => _ end = _ => assert (X : G = Ok (req, v) /\ keyOk C root k /\ (eNow e <= pkExp k)%Z) end.
  { destruct r as [x|s|]; [| |discriminate E].
    - apply pairEq in E as [E _]. split; [exact E|]. apply KN. left. apply LR. reflexivity.
    - destruct (String.eqb s errExists) eqn:SE; [|discriminate E]. apply String.eqb_eq in SE. apply pairEq in E as [E _]. split; [exact E|]. apply KN. right. congruence. }
  clear E KN LR. destruct X as (E & N1 & N2). unfold newBlindToken in E. destruct (newToken (pkID k) newOwner rnd) as [t'|] eqn:NT; cbn [rbind] in E; [|discriminate E].
  destruct (bBlind B (pkPoint k) pub (tokenHash C t') rnd2) as [[factors msg]|s|] eqn:BB; cbn [rbind] in E; [|discriminate E|discriminate E]. destruct (tokenMarshal t) as [tokM|] eqn:TM; cbn [optRes rbind] in E; [|discriminate E].
  destruct (isSome (snd (tokenProps t)) && negb (isSome oldOwner)) eqn:SM; [discriminate E|]. destruct (reissueMarshal (mkRe 0 tokM msg params) (packetSign C (reissueImage C (mkRe 0 tokM msg params)) oldOwner)) as [rq|] eqn:RM; cbn [optRes rbind] in E; [|discriminate E].
  destruct (keyMarshal k) as [kM|] eqn:KM; cbn [optRes rbind] in E; [|discriminate E]. destruct (tokenMarshal t') as [tM|] eqn:TM'; cbn [optRes rbind] in E; [|discriminate E].
  assert (EQ : rq = req /\ v = mkPriv kM factors tM (sha256 C (reissueImage C (mkRe 0 tokM msg params))) rq can). { assert (Q : forall (a b : bytes * private), Ok a = Ok b -> a = b) by congruence. apply Q in E. apply pairEq in E as [E1 E2]. auto. } destruct EQ as [-> ->].
  assert (PR : tokenProps t' = (pkID k, newOwner)). { destruct (C94_new (pkID k) newOwner rnd t' 0 0 0 0 ltac:(rewrite (koID _ _ _ N1); apply sha256_len) LO NT) as (H & _). exact H. }
  exists t, ok, k, kd, pub, can, t', msg, tokM, (packetSign C (reissueImage C (mkRe 0 tokM msg params)) oldOwner). cbn [vFactors vToken vKey vReq].
  split; [reflexivity|]. split; [reflexivity|]. split; [exact UK|]. split; [exact K1|]. split; [exact K2|]. split; [exact K3|]. split; [exact N1|]. split; [exact N2|]. split; [auto|]. split; [auto|]. split; [exact PR|]. split; [exact BB|]. split; [exact TM'|]. split; [exact KM|]. split; [exact TM|]. split; [exact RM|]. split; [reflexivity|].
  intros FL. unfold tokenProps in SM. rewrite FL in SM. cbn [snd isSome andb] in SM. destruct oldOwner as [priv|]; [|discriminate SM]. exists priv. split; [reflexivity|]. apply C96_verify.
Qed.
(* the entries of the wallet server have the wallet's private key even if the token has no owner: the packet is signed, and the issuer, which
   expects no signature for such a token, refuses it *)
Theorem C154_ownerless : forall C image priv, packetVerify C image (packetSign C image (Some priv)) None = Err "types: signer needed for verification".
Proof. intros. unfold packetVerify, packetSign. rewrite edsign_len. reflexivity. Qed.
Definition exParams (k : pubKey) : bytes := match derMarshal [DOct (exUsed k); DOct [1]; DBool true] with Some d => d | None => [] end.
Definition kNew : pubKey := Eval vm_compute in exIss (str "a") 9 3000 (str "Message").
Definition issuerSees (req : bytes) (pub : option bytes) : res unit :=
  do (re, sig) <- reissueUnmarshal req; packetVerify toy (reissueImage toy re) sig pub.
(* a client that knows the key of its tokens *)
Definition exKnows : client := Eval vm_compute in snd (cVerify toy exB exE (exAns kMsg) (exTokOf kMsg None 5) exCl).
Theorem C154_refuted : let w := walletToken toy exB exE None (exTokOf kMsg None 5, exParams kNew, exUsed kMsg) exKnows in
  let te := orElse noTE (getToken (fst (orElse ([], false) (fst w))) (-1) (stDB (cStore (snd w)))) in
  let r := reissueAsk toy exB exE (tToken te) (tPriv te) (Some (repeat 4 32)) (orNil (tParams te)) (repeat 8 48) [] (snd w) in
  is_ok (fst w) = true /\ is_ok (fst r) = true /\ issuerSees (fst (orElse ([], mkPriv [] [] [] [] [] false) (fst r))) None = Err "types: signer needed for verification".
Proof. cbv zeta. repeat split; vm_compute; reflexivity. Qed.
Example C154_ex : let r := reissueAsk toy exB exE (exTokOf kMsg (Some (edpub toy (str "o"))) 5) (Some (str "o")) (Some (repeat 4 32)) (exParams kNew) (repeat 8 48) [] exKnows in
  is_ok (fst r) = true /\ issuerSees (fst (orElse ([], mkPriv [] [] [] [] [] false) (fst r))) (Some (edpub toy (str "o"))) = Ok tt /\
  fst (reissueAsk toy exB exE (exTokOf kMsg (Some (edpub toy (str "o"))) 5) None (Some (repeat 4 32)) (exParams kNew) (repeat 8 48) [] exKnows) = Err "client: signer missing but required" /\
  fst (reissueAsk toy exB exE (exTokOf kMsg None 5) None (Some (repeat 4 32)) (exParams kAcc) (repeat 8 48) [] exKnows) = Err "client: parameters do not match token".
Proof. cbv zeta. repeat split; vm_compute; reflexivity. Qed.

(* ---------------- C155: the runner ---------------- *)
(* threads that have called Runner, SetTarget or StopRunner and not done anything yet *)
Definition isStart (p : rpc_pc) : bool := match p with RStart | TStart | SSend => true | _ => false end.
Definition begins (s : rstate) : Prop := forallb isStart (rThreads s) = true /\ rHeld s = false /\ rRunning s = false.
Fixpoint cnt (f : rpc_pc -> bool) (l : list rpc_pc) : nat := match l with [] => 0%nat | p :: l' => ((if f p then 1 else 0) + cnt f l')%nat end.
Lemma cnt_app f a b : cnt f (a ++ b) = (cnt f a + cnt f b)%nat.
Proof. induction a as [|p a IH]; cbn [app cnt]; [reflexivity|]. rewrite IH. lia. Qed.
Lemma cnt_In f l p : In p l -> f p = true -> (1 <= cnt f l)%nat.
Proof. induction l as [|q l IH]; intros I F; [destruct I|]. cbn [cnt]. destruct I as [->|I]; [rewrite F; lia|]. specialize (IH I F). lia. Qed.
(* between its Lock and its Unlock, or returned without Unlock *)
Definition inside (p : rpc_pc) : bool := match p with RTest | RSet | RMeet | TSet => true | _ => false end.
Definition returned (p : rpc_pc) : bool := match p with RReturned => true | _ => false end.
Definition ended (p : rpc_pc) : bool := match p with RRecv | RExit | SSent => true | _ => false end.
Definition rInv (s : rstate) : Prop := (cnt inside (rThreads s) + cnt returned (rThreads s) = if rHeld s then 1 else 0)%nat /\ cnt ended (rThreads s) = 0%nat.
Lemma rInv_step s t : rInv s -> rstep s t -> rInv t.
Proof.
  intros [A B] X. unfold rInv in *.
  destruct X; cbn [rThreads rHeld] in *; rewrite ?cnt_app in *; cbn [cnt inside returned ended] in *; rewrite ?cnt_app in *; cbn [cnt inside returned ended] in *; try (destruct h); try (destruct ru); unfold chanLen in *; split; lia.
Qed.
Lemma begins_cnt f l : forallb isStart l = true -> (forall p, isStart p = true -> f p = false) -> cnt f l = 0%nat.
Proof. intros H F. induction l as [|p l IH]; [reflexivity|]. cbn [forallb] in H. apply andb_true_iff in H as [H1 H2]. cbn [cnt]. rewrite (F p H1), (IH H2). reflexivity. Qed.
Lemma rInv_begins s : begins s -> rInv s.
Proof. intros (A & B & _). split; [rewrite B|]; rewrite !begins_cnt; auto; intros []; intros H; try reflexivity; discriminate H. Qed.
Lemma rInv_reach s t : rInv s -> rreach s t -> rInv t.
Proof. intros I R. induction R; [exact I|]. apply (rInv_step t u); auto. Qed.
(* whatever threads there are: StopRunner never returns and no runner ever ends, as the length of a channel without buffer is 0 *)
Theorem C155_stop_never : forall s t, begins s -> rreach s t -> ~ In SSent (rThreads t) /\ ~ In RExit (rThreads t).
Proof.
  intros s t H R. destruct (rInv_reach _ _ (rInv_begins _ H) R) as [_ B]. split; intros I; pose proof (cnt_In ended _ _ I eq_refl); lia.
Qed.
(* two threads are never inside the lock *)
Theorem C155_exclusive : forall s t, begins s -> rreach s t -> forall a p b q c, rThreads t = a ++ p :: b ++ q :: c -> inside p = true -> inside q = true -> False.
Proof.
  intros s t H R a p b q c E P Q. destruct (rInv_reach _ _ (rInv_begins _ H) R) as [A _]. rewrite E in A. rewrite !cnt_app in A. cbn [cnt] in A. rewrite cnt_app in A. cbn [cnt] in A. rewrite P, Q in A. destruct (rHeld t); lia.
Qed.
(* Once a second Runner has returned, the lock is held for ever: nobody who waits for it gets it, no target is set or met any more. *)
Lemma nth_mid {A} (a b : list A) x y n p : nth_error (a ++ x :: b) n = Some p -> p <> x -> nth_error (a ++ y :: b) n = Some p.
Proof.
  revert n. induction a as [|q a IH]; intros [|n] E N0; cbn [app nth_error] in *; [congruence|exact E|exact E|]. apply IH; assumption.
Qed.
Theorem C155_second_runner_blocks : forall s t u, begins s -> rreach s t -> In RReturned (rThreads t) -> rreach t u ->
  rHeld u = true /\ forall n p, p <> RLoop -> nth_error (rThreads t) n = Some p -> nth_error (rThreads u) n = Some p.
Proof.
  intros s t u H R I R2. pose proof (rInv_reach _ _ (rInv_begins _ H) R) as [A B]. pose proof (cnt_In returned _ _ I eq_refl) as CR.
  assert (A0 : cnt inside (rThreads t) = 0%nat /\ cnt returned (rThreads t) = 1%nat /\ rHeld t = true) by (destruct (rHeld t); repeat split; lia). clear A CR I R H s.
  assert (G : cnt inside (rThreads u) = 0%nat /\ cnt returned (rThreads u) = 1%nat /\ rHeld u = true /\ cnt ended (rThreads u) = 0%nat /\ forall n p, p <> RLoop -> nth_error (rThreads t) n = Some p -> nth_error (rThreads u) n = Some p); [|destruct G as (_ & _ & G1 & _ & G2); split; assumption].
  induction R2 as [t|t v w R2 IH X]; [destruct A0 as (A1 & A2 & A3); auto 6|]. destruct (IH B A0) as (I1 & I2 & I3 & I4 & I5). clear IH A0 B.
  destruct X; cbn [rThreads rHeld] in *; rewrite ?cnt_app in *; cbn [cnt inside returned ended] in *; rewrite ?cnt_app in *; cbn [cnt inside returned ended] in *; try discriminate I3; try lia; unfold chanLen in *; try lia.
  do 4 (split; [first [lia|exact I3]|]). intros n p N0 E. apply (nth_mid a b RLoop RWant); [apply I5; assumption|exact N0].
Qed.
(* such a state is reached: two calls of Runner and one of SetTarget, which waits for ever *)
Example C155_ex : begins (mkR [RStart; RStart; TStart; SSend] false false) /\ rreach (mkR [RStart; RStart; TStart; SSend] false false) (mkR [RLoop; RReturned; TStart; SSend] true true).
Proof.
  split; [repeat split|]. eapply YStep; [eapply YStep; [eapply YStep; [eapply YStep; [eapply YStep; [apply YRefl|]|]|]|]|].
  - exact (XLock [] [RStart; TStart; SSend] false).
  - exact (XFirst [] [RStart; TStart; SSend] true).
  - exact (XUnlock [] [RStart; TStart; SSend] true true).
  - exact (XLock [RLoop] [TStart; SSend] true).
  - exact (XAgain [RLoop] [TStart; SSend] true).
Qed.
Theorem C155_refuted : exists s t, begins s /\ rreach s t /\ In SSend (rThreads t) /\ In TStart (rThreads t) /\
  forall u, rreach t u -> rHeld u = true /\ nth_error (rThreads u) 2 = Some TStart /\ nth_error (rThreads u) 3 = Some SSend.
Proof.
  destruct C155_ex as [B R]. do 2 eexists. split; [exact B|]. split; [exact R|]. cbn [rThreads]. split; [cbn [In]; tauto|]. split; [cbn [In]; tauto|]. intros u RU.
  destruct (C155_second_runner_blocks _ _ u B R ltac:(cbn [rThreads In]; tauto) RU) as [HE N0]. split; [exact HE|]. split; apply N0; [discriminate|reflexivity|discriminate|reflexivity].
Qed.
(* With one Runner the lock is only held by somebody who will release it. *)
Definition runs (p : rpc_pc) : bool := match p with TStart | TSet | TDone | SSend | SSent => false | _ => true end.
Definition started (p : rpc_pc) : bool := match p with TStart | TSet | TDone | SSend | SSent | RStart | RTest => false | _ => true end.
Theorem C155_one_partial : forall s t, begins s -> (cnt runs (rThreads s) <= 1)%nat -> rreach s t -> ~ In RReturned (rThreads t) /\ (rHeld t = true -> exists p, In p (rThreads t) /\ inside p = true).
Proof.
  intros s t H O R. assert (G : (cnt runs (rThreads t) <= 1)%nat /\ (rRunning t = true -> (1 <= cnt started (rThreads t))%nat) /\ cnt returned (rThreads t) = 0%nat).
  { destruct H as (H1 & _ & H3). assert (R0 : cnt returned (rThreads s) = 0%nat) by (apply begins_cnt; [exact H1|]; intros []; intros H; try reflexivity; discriminate H). clear H1.
    induction R as [s|s v w R IH X]; [split; [exact O|]; split; [congruence|exact R0]|]. destruct (IH H3 O R0) as (I1 & I2 & I3). clear IH O H3 R0. assert (LE : forall l, (cnt started l <= cnt runs l)%nat). { induction l as [|q l IHl]; [cbn [cnt]; lia|]. cbn [cnt]. destruct q; cbn [started runs]; lia. }
    destruct X; cbn [rThreads rRunning] in *; rewrite ?cnt_app in *; cbn [cnt runs started returned] in *; rewrite ?cnt_app in *; cbn [cnt runs started returned] in *; try (pose proof (LE a)); try (pose proof (LE b)); (split; [lia|]); (split; [intros RU; try (specialize (I2 RU)); try lia|]); try lia.
    all: specialize (I2 eq_refl); lia. }
  destruct G as (_ & _ & G). destruct (rInv_reach _ _ (rInv_begins _ H) R) as [A _]. split; [intros I; pose proof (cnt_In returned _ _ I eq_refl); lia|]. intros HE. rewrite HE, G in A. clear - A.
  induction (rThreads t) as [|q l IH]; [discriminate A|]. cbn [cnt] in A. destruct (inside q) eqn:Q; [exists q; split; [left; reflexivity|exact Q]|]. destruct (IH A) as (p & I & P). exists p. split; [right; exact I|exact P].
Qed.

Lemma app_len_inj {A} (a b c d : list A) : lenN a = lenN c -> a ++ b = c ++ d -> a = c /\ b = d.
Proof.
  revert c. induction a as [|x a IH]; intros [|y c] L E; try (rewrite ?lenN_cons, ?lenN_nil in L; lia); [auto|]. rewrite !lenN_cons in L. cbn [app] in E. assert (x = y) as -> by congruence. destruct (IH c ltac:(lia) ltac:(congruence)) as [-> ->]. auto.
Qed.
(* ---------------- C156: addresses of the issuers ---------------- *)
Theorem C156_injective : forall host path pk pk' i i', lenN pk = 32 -> lenN pk' = 32 -> wfb pk -> wfb pk' -> pubKeyToURL host path pk i = pubKeyToURL host path pk' i' -> pk = pk' /\ i = i'.
Proof.
  intros host path pk pk' i i' L L' W W' E. unfold pubKeyToURL in E. assert (LH : lenN (hexenc pk) = 64 /\ lenN (hexenc pk') = 64) by (rewrite !lenN_hexenc; lia). destruct LH as [H H'].
  assert (LI : i = i'). { apply (f_equal lenN) in E. rewrite !lenN_app, !lenN_takeN, H, H' in E. destruct i, i'; try reflexivity; cbn [lenN str] in E; exfalso; revert E; unfold lenN; cbn; lia. } subst i'. split; [|reflexivity].
  apply hexenc_inj; [exact W|exact W'|]. rewrite !app_assoc in E. apply app_len_inj in E; [apply E|]. rewrite !lenN_app, !lenN_takeN, H, H'. reflexivity.
Qed.
Lemma hexenc_app a b : hexenc (a ++ b) = hexenc a ++ hexenc b.
Proof. induction a as [|x a IH]; [reflexivity|]. cbn [hexenc app]. rewrite IH. reflexivity. Qed.
(* the host of the issuer is named by the first 24 bytes of its key, in a label short enough for a name *)
Theorem C156_label : forall host path pk, lenN pk = 32 -> lenN (hexenc (takeN 24 pk) ++ str "int") <= 63 /\ lenN (hexenc (takeN 24 pk)) = 48 /\
  pubKeyToURL host path pk false = str "https://" ++ hexenc (takeN 24 pk) ++ host ++ path ++ hexenc pk /\
  pubKeyToURL host path pk true = str "https://" ++ hexenc (takeN 24 pk) ++ str "int" ++ host ++ path ++ str "int/" ++ hexenc pk.
Proof.
  intros host path pk L. assert (T : takeN 48 (hexenc pk) = hexenc (takeN 24 pk)).
  { rewrite <- (takeN_dropN 24 pk) at 1. rewrite hexenc_app. apply takeN_app. rewrite lenN_hexenc, lenN_takeN, L. reflexivity. }
  assert (H : lenN (hexenc (takeN 24 pk)) = 48) by (rewrite lenN_hexenc, lenN_takeN, L; reflexivity). split; [rewrite lenN_app, H; vm_compute; discriminate|]. split; [exact H|]. unfold pubKeyToURL. rewrite T. split; reflexivity.
Qed.
Example C156_label_ex : pubKeyToURL (str ".x") (str "/p/") (repeat 171 32) true = str "https://ababababababababababababababababababababababababint.x/p/int/abababababababababababababababababababababababababababababababab".
Proof. vm_compute. reflexivity. Qed.
Example C156_ex : pubKeyToURL (str ".issuer.example:99") (str "/iss/") (repeat 171 32) true <> pubKeyToURL (str ".issuer.example:99") (str "/iss/") (repeat 171 32) false.
Proof. vm_compute. discriminate. Qed.

Print Assumptions C148_typed_partial.
Print Assumptions C148_refuted.
Print Assumptions C148_wallet.
Print Assumptions C148_members.
Print Assumptions C148_noroot.
Print Assumptions C150_failed.
Print Assumptions C153_signature.
Print Assumptions C156_label.
Print Assumptions C149_signed.
Print Assumptions C149_keys_partial.
Print Assumptions C149_refuted.
Print Assumptions C150_signed_partial.
Print Assumptions C150_never_removed.
Print Assumptions C150_goonline.
Print Assumptions C150_restart.
Print Assumptions C150_refuted.
Print Assumptions C151_chain_partial.
Print Assumptions C151_refuted.
Print Assumptions C152_received.
Print Assumptions C152_refused.
Print Assumptions C152_once.
Print Assumptions C152_ownerless.
Print Assumptions C152_not_reissued.
Print Assumptions C152_refuted.
Print Assumptions C153_refuted.
Print Assumptions C153_reissued_partial.
Print Assumptions C154_request_partial.
Print Assumptions C154_ownerless.
Print Assumptions C154_refuted.
Print Assumptions C155_stop_never.
Print Assumptions C155_exclusive.
Print Assumptions C155_second_runner_blocks.
Print Assumptions C155_refuted.
Print Assumptions C155_one_partial.
Print Assumptions C156_injective.
