(* Mix headers, nym addresses, mix address lists and relayed messages: C43 - C48 and C79. *)
From Verif Require Import Base Base64Model CodecModel CryptoModel Asn1Model Asn1Proofs MixModel MixProofs.
Local Open Scope N_scope.

(* ------------------------------------------------------------------ *)
(* C43: the mix header codec. *)
(* Full statement: decoding an encoded header returns it.  It fails for a one-byte zero token,
   which stands for "no token"; an empty token aborts the decoder. *)
Theorem C43_codec_refuted :
  exists h, mhUnmarshal (mhMarshal h) <> Ok (h, lenN (mhMarshal h)).
Proof. exists (mkMH 2 1 2 (Some [0]) [7] (Some [9])). vm_compute. discriminate. Qed.
Theorem C43_empty_token_refuted :
  exists h, mhToken h = Some [] /\ mhUnmarshal (mhMarshal h) = Panic.
Proof. exists (mkMH 2 1 2 (Some []) [7] (Some [9])). split; [reflexivity|vm_compute; reflexivity]. Qed.
(* Partial: it holds for every header with 32-bit numbers, whose token and revoke identifier are absent or neither
   empty nor the single byte zero, with no revoke identifier on a forward message, and whose encoding fits in 64 KiB;
   missing are the headers excluded by these conditions. *)
Theorem C43_codec_partial : forall h r,
  int32ok (mhType h) -> int32ok (mhMin h) -> int32ok (mhMax h) ->
  mhToken h <> Some [] -> mhToken h <> Some [0] -> mhRevoke h <> Some [] -> mhRevoke h <> Some [0] ->
  (mhType h = MessageTypeForward -> mhRevoke h = None) -> lenN (mhMarshal h) <= 65535 ->
  mhUnmarshal (mhMarshal h ++ r) = Ok (h, lenN (mhMarshal h)).
Proof. intros. apply mhUnmarshal_marshal. repeat split; auto; unfold int32ok in *; lia. Qed.
Example C43_example : let h := mkMH 2 10 (-20) (Some [0; 0]) (str "nym") (Some [1; 2; 3]) in
  (lenN (mhMarshal h) <= 65535) /\ mhUnmarshal (mhMarshal h ++ [5; 6]) = Ok (h, lenN (mhMarshal h)) /\ lenN (mhMarshal h) = 27.
Proof. cbv zeta. split; [vm_compute; discriminate|split; vm_compute; reflexivity]. Qed.

(* ------------------------------------------------------------------ *)
(* C44: malformed input. *)
Theorem C44_nopanic_refuted : exists d, wfb d /\ mhUnmarshal d = Panic.
Proof. exists [255; 255; 0]. split; [repeat constructor|vm_compute; reflexivity]. Qed.
(* Partial: exactly which inputs abort the decoder; everything else is decoded or rejected. *)
Theorem C44_decoder_partial : forall d, wfb d ->
  (mhUnmarshal d = Panic <->
   3 <= lenN d /\
   (65534 <= be_dec (takeN 2 d) \/
    exists t mi ma tok addr rev, lenN d >= be_dec (takeN 2 d) + 2 /\
      derUnmarshal mhTypes (takeN (be_dec (takeN 2 d)) (dropN 2 d)) = Ok [DInt t; DInt mi; DInt ma; DOct tok; DOct addr; DOct rev] /\ (tok = [] \/ rev = []))).
Proof.
  intros d W. set (v := be_dec (takeN 2 d)).
  assert (V : v < 65536).
  { unfold v. eapply N.lt_le_trans; [apply be_dec_bound, wfb_takeN, W|]. rewrite lenN_takeN.
    change 65536 with (256 ^ 2). apply N.pow_le_mono_r; lia. }
  unfold mhUnmarshal. destruct (lenN d <? 3) eqn:L3.
  { split; [discriminate|]. intros [H _]. lia. }
  fold v. cbv zeta.
  destruct (65534 <=? v) eqn:V2.
  { assert ((v + 2) mod 65536 < 2) by lia. destruct (lenN d <? (v + 2) mod 65536) eqn:L4; [lia|].
    assert (S : sliceR d 2 ((v + 2) mod 65536) = Panic). { unfold sliceR. replace (2 <=? (v + 2) mod 65536) with false by lia. reflexivity. }
    rewrite S. cbn [rbind]. split; [intros _; split; [lia|left; lia]|reflexivity]. }
  replace ((v + 2) mod 65536) with (v + 2) by lia.
  destruct (lenN d <? v + 2) eqn:L4.
  { split; [discriminate|]. intros [_ [H|(t & mi & ma & tok & ad & rev & H & _)]]; lia. }
  rewrite sliceR_ok by lia. cbn [rbind]. replace (v + 2 - 2) with v by lia.
  destruct (derUnmarshal mhTypes (takeN v (dropN 2 d))) as [l| |] eqn:D; cbn [rbind].
  - split.
    + intros H. split; [lia|]. right.
      destruct (mh_shape _ _ D) as (t & mi & ma & tok & ad & rev & ->).
      exists t, mi, ma, tok, ad, rev. split; [lia|]. split; [reflexivity|].
      destruct tok; [auto|]. destruct rev; [auto|]. discriminate.
    + intros [_ [H|(t & mi & ma & tok & ad & rev & _ & E & H)]]; [lia|].
      assert (l = [DInt t; DInt mi; DInt ma; DOct tok; DOct ad; DOct rev]) as -> by (injection E; auto).
      destruct H as [->| ->]; [reflexivity|]. destruct tok; reflexivity.
  - split; [discriminate|]. intros [_ [H|(t & mi & ma & tok & ad & rev & _ & E & H)]]; [lia|]. discriminate.
  - exfalso. exact (derUnmarshal_np _ _ D).
Qed.
(* A mix that receives a well-formed envelope with a short message of another type, or a header near 64 KiB, is aborted too. *)
Theorem C44_receive_refuted : exists M lookup now message,
  (exists d h n, mixDecrypt M lookup message = Ok d /\ mhUnmarshal d = Ok (h, n)) /\ receiveMessage M lookup now message = Panic.
Proof.
  exists toyMix, (fun _ => Some (zpad 31 ++ [5])), 0%Z,
    (mixEncrypt toyMix (dhpub toyMix (zpad 31 ++ [5])) (zpad 31 ++ [6]) (zpad 32) (mhMarshal (mkMH 3 0 0 None [] None) ++ [1; 2; 3])).
  split; [|vm_compute; reflexivity].
  exists (mhMarshal (mkMH 3 0 0 None [] None) ++ [1; 2; 3]), (mkMH 3 0 0 None [] None), (lenN (mhMarshal (mkMH 3 0 0 None [] None))).
  split; vm_compute; reflexivity.
Qed.
Lemma parseAddress_np now b : parseAddress now b <> Panic.
Proof.
  unfold parseAddress. apply rbind_np; [apply derUnmarshal_np|]. intros l D.
  destruct (na_shape _ _ D) as (a & e & s & t & m & k & p & ->). destruct (e <? now)%Z; discriminate.
Qed.
Lemma getMixData_np M lookup a : getMixData M lookup a <> Panic.
Proof.
  unfold getMixData. destruct (lookup _); [|discriminate]. destruct (lionDec _ _ _); [|discriminate]. cbn [lift rbind].
  apply rbind_np; [apply derUnmarshal_np|]. intros l D.
  destruct (np_shape _ _ D) as (sy & ad & ex & su & mi & ma & no & rp & en & hm & ->). discriminate.
Qed.
Lemma mhUnmarshal_bound d h n : mhUnmarshal d = Ok (h, n) -> n <= lenN d.
Proof.
  unfold mhUnmarshal. destruct (lenN d <? 3); [discriminate|]. cbv zeta.
  destruct (lenN d <? (be_dec (takeN 2 d) + 2) mod 65536) eqn:E; [discriminate|]. intros U.
  destruct (sliceR _ _ _) as [s| |]; try discriminate; cbn [rbind] in U. destruct (derUnmarshal mhTypes s) as [l| |] eqn:D; try discriminate; cbn [rbind] in U.
  destruct (mh_shape _ _ D) as (t & mi & ma & tok & ad & rev & ->).
  destruct tok; [discriminate|]. destruct rev; [discriminate|]. assert (n = (be_dec (takeN 2 d) + 2) mod 65536) by (injection U; auto). lia.
Qed.
Theorem C44_receive_partial : forall (M : MixCrypto) lookup now message,
  receiveMessage M lookup now message = Panic ->
  exists d, mixDecrypt M lookup message = Ok d /\
    (mhUnmarshal d = Panic \/
     exists h n, mhUnmarshal d = Ok (h, n) /\
       (65280 <= n \/ (mhType h <> MessageTypeRelay /\ mhType h <> MessageTypeForward /\ lenN d < n + 256))).
Proof.
  intros M lookup now message. unfold receiveMessage.
  destruct (mixDecrypt M lookup message) as [d| |] eqn:D; cbn [rbind]; [|discriminate|].
  2:{ exfalso. revert D. unfold mixDecrypt. destruct (_ <=? 96); [discriminate|]. destruct (lookup _); [|discriminate]. cbv zeta. destruct (gcmopen _ _ _ _); discriminate. }
  intros H. exists d. split; [reflexivity|].
  destruct (mhUnmarshal d) as [[h n]| |] eqn:U; cbn [rbind] in H; [|discriminate|auto]. right. exists h, n. split; [reflexivity|].
  assert (Sl : sliceR d n ((n + 256) mod 65536) = Panic -> 65280 <= n \/ lenN d < n + 256).
  { intros S. destruct (65280 <=? n) eqn:E; [left; lia|right].
    destruct (lenN d <? n + 256) eqn:E2; [lia|]. exfalso. revert S. rewrite sliceR_ok by lia. discriminate. }
  assert (Nw := mhUnmarshal_bound _ _ _ U).
  destruct (mhType h =? MessageTypeRelay)%Z eqn:R; cbn [andb] in H.
  - unfold RelayMinSize in H. destruct ((lenN d - n <? 4096) || (RelayMaxSize <? lenN d - n)) eqn:B; [discriminate|].
    destruct (mhType h =? MessageTypeForward)%Z eqn:F; [unfold MessageTypeRelay, MessageTypeForward in *; lia|]. cbn [andb] in H.
    destruct (parseAddress now (mhAddress h)) as [a| |] eqn:P; cbn [rbind] in H; [|discriminate|destruct (parseAddress_np _ _ P)].
    destruct (getMixData M lookup a) as [p| |] eqn:G; cbn [rbind] in H; [|discriminate|destruct (getMixData_np _ _ _ G)].
    destruct (sliceR d n ((n + 256) mod 65536)) eqn:S; cbn [rbind] in H; try discriminate.
    apply orb_false_iff in B. destruct (Sl eq_refl); [auto|lia].
  - destruct (mhType h =? MessageTypeForward)%Z eqn:F; cbn [andb] in H.
    + unfold ForwardMinSize in H. destruct ((lenN d - n <? 1024) || (ForwardMaxSize <? lenN d - n)) eqn:B; [discriminate|].
      destruct (sliceR d n ((n + 256) mod 65536)) eqn:S; cbn [rbind] in H; try discriminate.
      apply orb_false_iff in B. destruct (Sl eq_refl); [auto|lia].
    + destruct (sliceR d n ((n + 256) mod 65536)) eqn:S; cbn [rbind] in H; try discriminate.
      destruct (Sl eq_refl); [auto|]. right. lia.
Qed.
(* The receiver is only aborted by a header that carries a valid HMAC under its own secret. *)
Theorem C44_client_partial : forall (M : MixCrypto) secret mailbox msg,
  receiveFromMix M secret mailbox msg = Panic ->
  exists se no rp en, let k := hmac256 M secret (no ++ rp ++ mailbox) in
    derUnmarshal rhTypes (takeN (be_dec (takeN 2 msg)) (dropN 2 msg)) =
    Ok [DOct se; DOct no; DOct rp; DOct en; DOct (hmac256 M k (no ++ rp ++ en))].
Proof.
  intros M secret mailbox msg. unfold receiveFromMix. destruct (lenN msg <? 2); [discriminate|]. cbv zeta.
  destruct (lenN msg <? _); [discriminate|]. set (hc := takeN (be_dec (takeN 2 msg)) (dropN 2 msg)). unfold getPrivate.
  destruct (derUnmarshal rhTypes hc) as [l| |] eqn:D; [|discriminate|destruct (derUnmarshal_np _ _ D)]. cbn [rbind].
  destruct (rh_shape _ _ D) as (se & no & rp & en & hm & ->).
  intros H. exists se, no, rp, en. destruct (negb (beq hm _)) eqn:B; [discriminate|].
  apply negb_false_iff, beq_spec in B. rewrite B. reflexivity.
Qed.

(* ------------------------------------------------------------------ *)
(* C45: nym addresses lead back to their owner. *)
Definition zk (n : N) : bytes := zpad 31 ++ [n].
Theorem C45_recover : forall (M : MixCrypto) tpl mailbox nym now rnd apriv nonce a now' lookup epriv,
  int32ok (tpSystem tpl) -> int64ok (tpExpire tpl) -> int32ok (tpMin tpl) -> int32ok (tpMax tpl) ->
  lenN nonce = 32 -> lenN a < 2 ^ 31 ->
  (forall m, In m (tpMixes tpl) -> exists k, pad32 (maPub m) = dhpub M k /\ lookup (dhpub M k) = Some k) ->
  newAddress M tpl mailbox nym now rnd apriv nonce = Ok a -> (now' <= tpExpire tpl)%Z ->
  exists ad p hdr secret,
    parseAddress now' a = Ok ad /\ getMixData M lookup ad = Ok p /\ getHeader M p epriv = Ok (hdr, secret) /\
    npAddress p = mailbox /\ npExpire p = tpExpire tpl /\
    getPrivate M (tpSecret tpl) hdr mailbox = Ok (pad32 nym, secret).
Proof.
  intros M tpl mailbox nym now rnd apriv nonce a now' lookup epriv W1 W2 W3 W4 Ln La Mx H Ex.
  destruct (newAddress_inv _ _ _ _ _ _ _ _ _ H) as (mix & pm & pe & R & Epm & Epe & Ea).
  assert (Im : In mix (tpMixes tpl)).
  { unfold adlRand in R. remember (adlExpire (tpExpire tpl) now (tpMixes tpl)) as l eqn:El.
    assert (In mix l) by (destruct l; [discriminate|apply nth_error_In in R; exact R]). subst l. unfold adlExpire in H0. apply filter_In in H0. apply H0. }
  destruct (Mx mix Im) as (k & Pk & Lk).
  exists (mkNA (maAddress mix) (tpExpire tpl) (tpSingle tpl) (maToken mix) (maPub mix) (dhpub M apriv) pe), (builtPrivate M tpl mailbox nym nonce).
  assert (Hd : exists hdr, derMarshal (rhFields (mkRH (dhpub M epriv) (npNonce (builtPrivate M tpl mailbox nym nonce)) (npRecv (builtPrivate M tpl mailbox nym nonce)) (npEncNym (builtPrivate M tpl mailbox nym nonce)) (npHMAC (builtPrivate M tpl mailbox nym nonce)))) = Some hdr).
  { unfold derMarshal, rhFields. cbn [encFields encField]. eexists; reflexivity. }
  destruct Hd as [hdr Eh]. exists hdr, (dh M epriv (pad32 (npRecv (builtPrivate M tpl mailbox nym nonce)))).
  split. { rewrite (parse_built M tpl mix apriv pe a now' W2 La Ea). replace (tpExpire tpl <? now')%Z with false by lia. reflexivity. }
  split. { apply (getMixData_built M tpl mailbox nym nonce mix pm pe apriv a lookup k); try assumption; [exact (conj W1 (conj W2 (conj W3 W4)))|rewrite Pk; exact Lk]. }
  assert (G : getHeader M (builtPrivate M tpl mailbox nym nonce) epriv = Ok (hdr, dh M epriv (pad32 (npRecv (builtPrivate M tpl mailbox nym nonce))))).
  { unfold getHeader. rewrite Eh. reflexivity. }
  split; [exact G|]. split; [reflexivity|]. split; [reflexivity|].
  apply (getPrivate_built M tpl mailbox nym nonce epriv hdr _ Ln G).
Qed.
(* A header that is accepted and carries the HMAC of a header made for this mailbox and secret has the same nonce,
   receiver key and encrypted nym, unless the two HMAC computations involved collide; and changing the HMAC alone is refused. *)
Theorem C45_tamper : forall (M : MixCrypto) secret mailbox h1 h2 r1 r2 se1 no1 rp1 en1 hm1 se2 no2 rp2 en2 hm2,
  derUnmarshal rhTypes h1 = Ok [DOct se1; DOct no1; DOct rp1; DOct en1; DOct hm1] ->
  derUnmarshal rhTypes h2 = Ok [DOct se2; DOct no2; DOct rp2; DOct en2; DOct hm2] ->
  getPrivate M secret h1 mailbox = Ok r1 -> getPrivate M secret h2 mailbox = Ok r2 ->
  let k1 := hmac256 M secret (no1 ++ rp1 ++ mailbox) in
  let k2 := hmac256 M secret (no2 ++ rp2 ++ mailbox) in
  (k1 = k2 -> no1 ++ rp1 ++ mailbox = no2 ++ rp2 ++ mailbox) ->
  (hmac256 M k1 (no1 ++ rp1 ++ en1) = hmac256 M k2 (no2 ++ rp2 ++ en2) -> k1 = k2 /\ no1 ++ rp1 ++ en1 = no2 ++ rp2 ++ en2) ->
  (hm1 = hm2 <-> no1 = no2 /\ rp1 = rp2 /\ en1 = en2).
Proof.
  intros M secret mailbox h1 h2 r1 r2 se1 no1 rp1 en1 hm1 se2 no2 rp2 en2 hm2 D1 D2 G1 G2 k1 k2 CF1 CF2.
  unfold getPrivate in G1, G2. rewrite D1 in G1. rewrite D2 in G2. cbn [rbind] in G1, G2. cbv zeta in G1, G2.
  change (genSymKey M secret no1 rp1 mailbox) with k1 in G1. change (genSymKey M secret no2 rp2 mailbox) with k2 in G2.
  destruct (negb (beq hm1 (headHMAC M k1 no1 rp1 en1))) eqn:B1; [discriminate|].
  destruct (negb (beq hm2 (headHMAC M k2 no2 rp2 en2))) eqn:B2; [discriminate|].
  apply negb_false_iff, beq_spec in B1, B2. unfold headHMAC in B1, B2.
  destruct (decryptNym M k1 en1) as [n1| |]; try discriminate. destruct (decryptNym M k2 en2) as [n2| |]; try discriminate. cbn [rbind] in G1, G2.
  destruct (negb (beq _ rp1)) eqn:R1; [discriminate|]. destruct (negb (beq _ rp2)) eqn:R2; [discriminate|].
  apply negb_false_iff, beq_spec in R1, R2.
  assert (L1 : lenN rp1 = 32) by (rewrite <- R1; apply dhpub_len). assert (L2 : lenN rp2 = 32) by (rewrite <- R2; apply dhpub_len).
  split.
  - intros E. rewrite B1, B2 in E. destruct (CF2 E) as [Ek Em]. apply CF1 in Ek.
    rewrite !app_assoc in Ek, Em. apply app_inv_tail in Ek. rewrite Ek in Em. apply app_inv_head in Em.
    assert (Ln : lenN no1 = lenN no2). { assert (X := f_equal lenN Ek). rewrite !lenN_app in X. lia. }
    assert (no1 = no2). { rewrite <- (takeN_app no1 rp1 (lenN no1)) by reflexivity. rewrite Ek, Ln. apply takeN_app. reflexivity. }
    subst no2. apply app_inv_head in Ek. auto.
  - intros (<- & <- & <-). rewrite B1, B2. reflexivity.
Qed.
Definition exTpl : addrTemplate := mkTpl [1; 2; 3] 0 [mkMA (dhpub toyMix (zk 5)) 2000 (str "mix@mute.one") [8; 8]] 1500 true 1 2.
Definition exLookup (p : bytes) : option bytes := if beq p (dhpub toyMix (zk 5)) then Some (zk 5) else None.
Example C45_example :
  (do a <- newAddress toyMix exTpl (str "box@") [7; 7] 1000 3 (zk 6) (zk 7);
   do ad <- parseAddress 1400 a; do p <- getMixData toyMix exLookup ad;
   do (hdr, secret) <- getHeader toyMix p (zk 9);
   do (nym, secret') <- getPrivate toyMix (tpSecret exTpl) hdr (str "box@");
   Ok (beq nym (pad32 [7; 7]) && beq secret secret', is_ok (getPrivate toyMix (tpSecret exTpl) hdr (str "bax@")))) = Ok (true, false).
Proof. vm_compute. reflexivity. Qed.

(* ------------------------------------------------------------------ *)
(* C46: nym addresses do not outlive their mix. *)
Theorem C46_mix_outlives : forall (M : MixCrypto) tpl mailbox nym now rnd apriv nonce a now' ad,
  int64ok (tpExpire tpl) -> lenN a < 2 ^ 31 -> (0 <= now)%Z ->
  newAddress M tpl mailbox nym now rnd apriv nonce = Ok a -> parseAddress now' a = Ok ad ->
  exists m, In m (tpMixes tpl) /\ naMixPub ad = maPub m /\ naMix ad = maAddress m /\ naExpire ad = tpExpire tpl /\
    (now' <= naExpire ad)%Z /\ (naExpire ad < maExpire m)%Z.
Proof.
  intros M tpl mailbox nym now rnd apriv nonce a now' ad W La Nn H P.
  destruct (newAddress_inv _ _ _ _ _ _ _ _ _ H) as (mix & pm & pe & R & _ & _ & Ea).
  rewrite (parse_built M tpl mix apriv pe a now' W La Ea) in P.
  destruct (tpExpire tpl <? now')%Z eqn:X; [discriminate|].
  assert (ad = mkNA (maAddress mix) (tpExpire tpl) (tpSingle tpl) (maToken mix) (maPub mix) (dhpub M apriv) pe) as -> by (injection P; auto).
  exists mix. cbn [naMixPub naMix naExpire].
  assert (Im : In mix (adlExpire (tpExpire tpl) now (tpMixes tpl))).
  { unfold adlRand in R. destruct (adlExpire _ _ _); [discriminate|]. apply nth_error_In in R. exact R. }
  unfold adlExpire in Im. apply filter_In in Im. destruct Im as [Im Ie].
  split; [exact Im|]. split; [reflexivity|]. split; [reflexivity|]. split; [reflexivity|]. split; [lia|].
  destruct (tpExpire tpl =? 0)%Z eqn:Z0; lia.
Qed.
Theorem C46_expired_refused : forall now a ad, parseAddress now a = Ok ad -> (now <= naExpire ad)%Z.
Proof.
  intros now a ad. unfold parseAddress. destruct (derUnmarshal naTypes a) as [l| |] eqn:D; try discriminate. cbn [rbind].
  destruct (na_shape _ _ D) as (x & e & s & t & m & k & p & ->).
  destruct (e <? now)%Z eqn:E; [discriminate|]. intros H.
  assert (ad = mkNA x e s t m k p) as -> by (injection H; auto). cbn [naExpire]. lia.
Qed.
(* The mix still holds the key at any time at which a client accepts the address: whatever keys it added and
   expired at earlier times, a key published with a later expiry is found. *)
Definition opTime (o : klop) : Z := match o with KLAdd t _ => t | KLExpire t => t end.
Definition opPriv (o : klop) : option bytes := match o with KLAdd _ p => Some p | KLExpire _ => None end.
Lemma klFind_filter pub f l e : klFind pub l = Some e -> f (pub, e) = true -> klFind pub (filter f l) = Some e.
Proof.
  intros H Hf. induction l as [|[k x] l IH]; [discriminate|]. cbn [klFind] in H. cbn [filter].
  destruct (beq k pub) eqn:B.
  - apply beq_spec in B. assert (x = e) as -> by (injection H; auto). subst k. rewrite Hf. cbn [klFind]. rewrite beq_refl. reflexivity.
  - destruct (f (k, x)); cbn [klFind]; rewrite ?B; auto.
Qed.
Theorem C46_key_kept : forall (M : MixCrypto) adr sgn dur ops k pub e now,
  klFind pub (klKeys k) = Some e -> (now <= klExpire e)%Z ->
  (forall o, In o ops -> (opTime o <= now)%Z) ->
  (forall o p, In o ops -> opPriv o = Some p -> dhpub M p <> pub) ->
  getPrivateKey now pub (klRun M adr sgn dur ops k) = Some (klPriv e).
Proof.
  intros M adr sgn dur ops. induction ops as [|o ops IH]; intros k pub e now F Ex Ht Hp.
  - cbn. unfold getPrivateKey. rewrite F. replace (klExpire e <? now)%Z with false by lia. reflexivity.
  - unfold klRun. cbn [fold_left]. fold (klRun M adr sgn dur ops (klStep M adr sgn dur k o)).
    apply IH; [|exact Ex|intros; apply Ht; right; assumption|intros; eapply Hp; [right; eassumption|assumption]].
    destruct o as [t p|t]; cbn [klStep].
    + unfold addKey, updateStatement. cbn [klKeys klFind]. destruct (beq (dhpub M p) pub) eqn:B.
      { apply beq_spec in B. exfalso. apply (Hp (KLAdd t p) p); [left; reflexivity|reflexivity|exact B]. }
      apply klFind_filter; [exact F|]. cbn [fst]. rewrite beq_sym, B. reflexivity.
    + unfold klExpireRun. cbn [klKeys]. apply klFind_filter; [exact F|]. cbn [snd].
      assert (T := Ht (KLExpire t) (or_introl eq_refl)). cbn [opTime] in T. replace (klExpire e <? t)%Z with false by lia. reflexivity.
Qed.
Example C46_example :
  is_ok (newAddress toyMix (mkTpl [1] 0 [mkMA (zk 1) 1500 [] []; mkMA (zk 2) 1501 (str "m") []] 1500 false 0 0) [] [] 1000 0 (zk 6) (zk 7)) = true /\
  newAddress toyMix (mkTpl [1] 0 [mkMA (zk 1) 1500 [] []] 1500 false 0 0) [] [] 1000 0 (zk 6) (zk 7) = Err "nymaddr: no mix found" /\
  let k := klRun toyMix [] [] 100 [KLAdd 0 (zk 1); KLExpire 90; KLAdd 95 (zk 2); KLExpire 100] (mkKeyList [] None) in
  getPrivateKey 100 (dhpub toyMix (zk 1)) k = Some (zk 1) /\ getPrivateKey 101 (dhpub toyMix (zk 1)) k = None.
Proof. vm_compute. repeat split. Qed.

(* ------------------------------------------------------------------ *)
(* C47: ambiguity of signed lists. *)
(* The fields are hashed without lengths, so bytes can be moved between entries. *)
Theorem C47_ambiguous_refuted : exists l1 l2, l1 <> l2 /\ (forall e, In e (l1 ++ l2) -> lenN (maPub e) = 32) /\
  forall (M : MixCrypto) pub sig, stVerify M (mkStmt l1 sig pub) = stVerify M (mkStmt l2 sig pub).
Proof.
  exists [mkMA (zk 1) 5 (str "mix@a") (zk 3)], [mkMA (zk 1) 5 (str "mix") (str "@a" ++ zk 3)].
  split; [intros H; injection H; discriminate|]. split; [intros e [<-|[<-|[]]]; reflexivity|].
  intros M pub sig. unfold stVerify, adlVerify, adlHash. cbn [stAddrs stSig stPub]. reflexivity.
Qed.
(* Partial: with 32-byte mix keys, 32-byte token keys and mix addresses of one length the hashed bytes determine the list;
   missing: addresses of different lengths, other key sizes (see the refutation). *)
Definition uniform (L : N) (a : mixAddr) : Prop := lenN (maPub a) = 32 /\ lenN (maToken a) = 32 /\ lenN (maAddress a) = L /\ int64ok (maExpire a).
Lemma app_eq_len {A} (a b c d : list A) : lenN a = lenN c -> a ++ b = c ++ d -> a = c /\ b = d.
Proof.
  intros L E. assert (a = c).
  { rewrite <- (takeN_app a b (lenN a)) by reflexivity. rewrite E, L. apply takeN_app; reflexivity. }
  subst. split; [reflexivity|]. apply app_inv_head in E. exact E.
Qed.
Lemma maImage_len L a : uniform L a -> lenN (maImage a) = 72 + L.
Proof. intros (A & B & C & _). unfold maImage. rewrite !lenN_app, lenN_be, A, B, C. change (N.of_nat 8) with 8. lia. Qed.
Lemma maImage_inj L a b : uniform L a -> uniform L b -> maImage a = maImage b -> a = b.
Proof.
  intros (A1 & A2 & A3 & A4) (B1 & B2 & B3 & B4) E. unfold maImage in E.
  apply app_eq_len in E; [|lia]. destruct E as [E1 E]. apply app_eq_len in E; [|rewrite !lenN_be; reflexivity]. destruct E as [E2 E].
  apply app_eq_len in E; [|lia]. destruct E as [E3 E4].
  apply be_inj in E2.
  - unfold int64ok in *. assert (maExpire a mod 2 ^ 64 = maExpire b mod 2 ^ 64)%Z.
    { assert (0 <= maExpire a mod 2 ^ 64)%Z by (apply Z.mod_pos_bound; lia). assert (0 <= maExpire b mod 2 ^ 64)%Z by (apply Z.mod_pos_bound; lia). apply Z2N.inj; assumption. }
    assert (maExpire a = maExpire b) by lia. destruct a, b; cbn in *; congruence.
  - change (256 ^ N.of_nat 8) with (2 ^ 64). assert (0 <= maExpire a mod 2 ^ 64 < 2 ^ 64)%Z by (apply Z.mod_pos_bound; lia). lia.
  - change (256 ^ N.of_nat 8) with (2 ^ 64). assert (0 <= maExpire b mod 2 ^ 64 < 2 ^ 64)%Z by (apply Z.mod_pos_bound; lia). lia.
Qed.
Lemma images_inj L l1 : forall l2, Forall (uniform L) l1 -> Forall (uniform L) l2 -> concat (map maImage l1) = concat (map maImage l2) -> l1 = l2.
Proof.
  induction l1 as [|a l1 IH]; intros [|b l2] F1 F2 E; cbn [map concat] in E.
  - reflexivity.
  - apply Forall_inv in F2. assert (X := f_equal lenN E). rewrite lenN_app, (lenN_nil N), (maImage_len L b F2) in X. lia.
  - apply Forall_inv in F1. assert (X := f_equal lenN E). rewrite lenN_app, (lenN_nil N), (maImage_len L a F1) in X. lia.
  - assert (U1 := Forall_inv F1). assert (U2 := Forall_inv F2).
    apply app_eq_len in E; [|rewrite (maImage_len L a U1), (maImage_len L b U2); reflexivity]. destruct E as [E1 E].
    f_equal; [apply (maImage_inj L); assumption|apply IH; [exact (Forall_inv_tail F1)|exact (Forall_inv_tail F2)|exact E]].
Qed.
Theorem C47_uniform_partial : forall (M : MixCrypto) L l1 l2 pub sig,
  Forall (uniform L) l1 -> Forall (uniform L) l2 -> l1 <> l2 ->
  stVerify M (mkStmt l1 sig pub) = true -> stVerify M (mkStmt l2 sig pub) = true ->
  let m1 := concat (map maImage l1) in let m2 := concat (map maImage l2) in
  m1 <> m2 /\
  (sha256 M m1 = sha256 M m2 \/
   (sha256 M m1 <> sha256 M m2 /\ edverify M (pad32 pub) (sha256 M m1) (pad64 sig) = true /\ edverify M (pad32 pub) (sha256 M m2) (pad64 sig) = true)).
Proof.
  intros M L l1 l2 pub sig F1 F2 N V1 V2 m1 m2. split; [intros E; apply N; apply (images_inj L); assumption|].
  unfold stVerify, adlVerify, adlHash in V1, V2. cbn [stAddrs stSig stPub] in V1, V2. fold m1 in V1. fold m2 in V2.
  destruct (beq (sha256 M m1) (sha256 M m2)) eqn:B; [left; apply beq_spec; exact B|right; apply beq_neq in B; auto].
Qed.
Example C47_example : Forall (uniform 3) [mkMA (zk 1) 5 (str "mix") (zk 3); mkMA (zk 2) (-5) (str "mux") (zk 4)] /\
  stVerify toyMix (mkStatement toyMix [mkMA (zk 1) 5 (str "mix") (zk 3)] (zk 9)) = true /\
  stVerify toyMix (mkStmt [mkMA (zk 1) 6 (str "mix") (zk 3)] (stSig (mkStatement toyMix [mkMA (zk 1) 5 (str "mix") (zk 3)] (zk 9))) (edpub toyMix (zk 9))) = false.
Proof. split; [repeat constructor; vm_compute; discriminate|vm_compute; auto]. Qed.

(* ------------------------------------------------------------------ *)
(* C48: from the sender through the mix to the mailbox. *)
Lemma end_to_end_full : forall (M : MixCrypto) tpl pub sv mailbox nym now0 rnd apriv anonce na h now1 now2 msg revoke priv nonce env mixto lookup epriv,
  (* the receiver makes a nym address for a mailbox on a server in the system domain *)
  mailboxAddress pub (sv ++ MuteSystemDomain) = Ok mailbox ->
  tpSystem tpl = 0%Z -> int64ok (tpExpire tpl) -> int32ok (tpMin tpl) -> int32ok (tpMax tpl) -> lenN anonce = 32 ->
  newAddress M tpl mailbox nym now0 rnd apriv anonce = Ok na ->
  (* the sender makes a relay message for it, with delays and a token *)
  int32ok (mhMin h) -> int32ok (mhMax h) -> mhToken h <> Some [] -> mhToken h <> Some [0] -> lenN revoke = 32 -> lenN nonce = 32 ->
  4096 <= lenN msg -> lenN msg <= 65536 ->
  newRelay M h now1 na msg revoke priv nonce = Ok (env, mixto) ->
  lenN (mhMarshal (mkMH MessageTypeRelay (mhMin h) (mhMax h) (mhToken h) na (Some revoke))) < 65280 ->
  (* the mixes know the private keys of their public keys *)
  (forall m, In m (tpMixes tpl) -> exists k, pad32 (maPub m) = dhpub M k /\ lookup (dhpub M k) = Some k) ->
  (now2 <= tpExpire tpl)%Z ->
  exists r out, receiveMessage M lookup now2 env = Ok r /\ mhToken (rcHeader r) = mhToken h /\ rcMessage r = msg /\
    sendMessage M r epriv = Ok (out, hexenc pub ++ [64] ++ sv ++ MuteSystemDomain) /\
    receiveFromMix M (tpSecret tpl) mailbox out = Ok (msg, pad32 nym) /\
    exists hdr sec, getHeader M (builtPrivate M tpl mailbox nym anonce) epriv = Ok (hdr, sec) /\ lenN hdr = 175 /\
      out = be 2 (lenN hdr) ++ hdr ++ gcmseal M (takeN 12 (sha256 M hdr)) sec msg.
Proof.
  intros M tpl pub sv mailbox nym now0 rnd apriv anonce na h now1 now2 msg revoke priv nonce env mixto lookup epriv
    Mb Sy W2 W3 W4 Ln NA H1 H2 H3 H4 Lr Lno Lm1 Lm2 NR Lh Mx Ex.
  set (hd := mkMH MessageTypeRelay (mhMin h) (mhMax h) (mhToken h) na (Some revoke)) in *.
  assert (Wf : mhWf hd).
  { unfold mhWf, hd. cbn [mhType mhMin mhMax mhToken mhRevoke]. repeat split; auto; try (unfold int32ok in *; cbn; lia); try discriminate.
    - intros E. assert (revoke = []) as -> by (injection E; auto). discriminate.
    - intros E. assert (revoke = [0]) as -> by (injection E; auto). discriminate.
    - fold hd. lia. }
  assert (Lna : lenN na < 2 ^ 31).
  { destruct (mhMarshal_some hd) as (d & Ed & Em). assert (Sz := derMarshal_size _ _ Ed). unfold mhFields in Sz. invF Sz.
    rewrite Em, lenN_app in Lh. unfold hd in Sz4. cbn [mhAddress] in Sz4. lia. }
  destruct (newAddress_inv _ _ _ _ _ _ _ _ _ NA) as (mix & pm & pe & R & Epm & Epe & Ea).
  assert (Im : In mix (tpMixes tpl)).
  { unfold adlRand in R. remember (adlExpire (tpExpire tpl) now0 (tpMixes tpl)) as l eqn:El.
    assert (In mix l) by (destruct l; [discriminate|apply nth_error_In in R; exact R]). subst l. unfold adlExpire in H. apply filter_In in H. apply H. }
  destruct (Mx mix Im) as (k & Pk & Lk).
  set (ad := mkNA (maAddress mix) (tpExpire tpl) (tpSingle tpl) (maToken mix) (maPub mix) (dhpub M apriv) pe).
  set (p := builtPrivate M tpl mailbox nym anonce).
  unfold newRelay in NR. rewrite (parse_built M tpl mix apriv pe na now1 W2 Lna Ea) in NR.
  destruct (tpExpire tpl <? now1)%Z eqn:X1; [discriminate|]. cbn [rbind] in NR. fold hd in NR. cbn [naMixPub naMix] in NR.
  assert (Ee : env = mixEncrypt M (pad32 (maPub mix)) priv nonce (mhMarshal hd ++ msg)) by (injection NR; auto).
  assert (Wt : tplWf tpl) by (unfold tplWf; rewrite Sy; repeat split; unfold int32ok, int64ok in *; lia).
  assert (GM : getMixData M lookup ad = Ok p).
  { apply (getMixData_built M tpl mailbox nym anonce mix pm pe apriv na lookup k); try assumption. rewrite Pk. exact Lk. }
  assert (Pa : parseAddress now2 na = Ok ad).
  { rewrite (parse_built M tpl mix apriv pe na now2 W2 Lna Ea). replace (tpExpire tpl <? now2)%Z with false by lia. reflexivity. }
  assert (Dl : mixDecrypt M lookup env = Ok (mhMarshal hd ++ msg)).
  { rewrite Ee, Pk. apply mixDecrypt_encrypt; assumption. }
  assert (Lenv := Wf). destruct Wf as (_ & _ & _ & _ & _ & _ & _ & _ & Lw).
  exists (mkRecv hd (Some ad) (Some p) ((sha256 M (takeN 256 msg), npExpire p) :: if npSingle p then [(npRecv p, npExpire p)] else []) msg).
  assert (Hd : exists hdr, getHeader M p epriv = Ok (hdr, dh M epriv (pad32 (npRecv p)))).
  { unfold getHeader, derMarshal, rhFields. cbn [encFields encField lift rbind]. eexists; reflexivity. }
  destruct Hd as [hdr G].
  destruct (getPrivate_built M tpl mailbox nym anonce epriv hdr _ Ln G) as [Lhd GP].
  exists (be 2 (lenN hdr) ++ hdr ++ gcmseal M (takeN 12 (sha256 M hdr)) (dh M epriv (pad32 (npRecv p))) msg).
  split.
  { unfold receiveMessage. rewrite Dl. cbn [rbind]. rewrite (mhUnmarshal_marshal hd msg Lenv). cbn [rbind]. cbv zeta.
    rewrite lenN_app. replace (lenN (mhMarshal hd) + lenN msg - lenN (mhMarshal hd)) with (lenN msg) by lia.
    change (mhType hd =? MessageTypeRelay)%Z with true. change (mhType hd =? MessageTypeForward)%Z with false.
    unfold RelayMinSize, RelayMaxSize. replace (lenN msg <? 4096) with false by lia. replace (65536 <? lenN msg) with false by lia. cbn [andb orb].
    change (mhAddress hd) with na. rewrite Pa. cbn [rbind]. rewrite GM. cbn [rbind].
    replace ((lenN (mhMarshal hd) + 256) mod 65536) with (lenN (mhMarshal hd) + 256) by lia.
    rewrite sliceR_ok by (rewrite ?lenN_app; lia). cbn [rbind].
    rewrite dropN_app by reflexivity. replace (lenN (mhMarshal hd) + 256 - lenN (mhMarshal hd)) with 256 by lia. reflexivity. }
  split; [reflexivity|]. split; [reflexivity|]. split.
  { unfold sendMessage. cbn [rcHeader rcPrivate rcMessage]. change (mhType hd =? MessageTypeRelay)%Z with true. cbv iota.
    unfold sendRelay. rewrite G. cbn [rbind]. change (npSystem p) with (tpSystem tpl). rewrite Sy. change (negb (0 =? 0)%Z) with false. cbv iota zeta.
    f_equal. f_equal. change (npAddress p) with mailbox.
    unfold mailboxAddress in Mb. rewrite lenN_app in Mb. replace (lenN sv + lenN MuteSystemDomain <? lenN MuteSystemDomain) with false in Mb by lia.
    replace (lenN sv + lenN MuteSystemDomain - lenN MuteSystemDomain) with (lenN sv) in Mb by lia. rewrite takeN_app in Mb by reflexivity.
    assert (mailbox = hexenc pub ++ [64] ++ sv) as -> by (injection Mb; auto). rewrite <- !app_assoc. reflexivity. }
  split; [apply receiveFromMix_sent; [lia|exact GP]|]. exists hdr, (dh M epriv (pad32 (npRecv p))). split; [exact G|]. split; [exact Lhd|reflexivity].
Qed.
Theorem C48_end_to_end : forall (M : MixCrypto) tpl pub sv mailbox nym now0 rnd apriv anonce na h now1 now2 msg revoke priv nonce env mixto lookup epriv,
  (* the receiver makes a nym address for a mailbox on a server in the system domain *)
  mailboxAddress pub (sv ++ MuteSystemDomain) = Ok mailbox ->
  tpSystem tpl = 0%Z -> int64ok (tpExpire tpl) -> int32ok (tpMin tpl) -> int32ok (tpMax tpl) -> lenN anonce = 32 ->
  newAddress M tpl mailbox nym now0 rnd apriv anonce = Ok na ->
  (* the sender makes a relay message for it, with delays and a token *)
  int32ok (mhMin h) -> int32ok (mhMax h) -> mhToken h <> Some [] -> mhToken h <> Some [0] -> lenN revoke = 32 -> lenN nonce = 32 ->
  4096 <= lenN msg -> lenN msg <= 65536 ->
  newRelay M h now1 na msg revoke priv nonce = Ok (env, mixto) ->
  lenN (mhMarshal (mkMH MessageTypeRelay (mhMin h) (mhMax h) (mhToken h) na (Some revoke))) < 65280 ->
  (* the mixes know the private keys of their public keys *)
  (forall m, In m (tpMixes tpl) -> exists k, pad32 (maPub m) = dhpub M k /\ lookup (dhpub M k) = Some k) ->
  (now2 <= tpExpire tpl)%Z ->
  exists r out, receiveMessage M lookup now2 env = Ok r /\ mhToken (rcHeader r) = mhToken h /\ rcMessage r = msg /\
    sendMessage M r epriv = Ok (out, hexenc pub ++ [64] ++ sv ++ MuteSystemDomain) /\
    receiveFromMix M (tpSecret tpl) mailbox out = Ok (msg, pad32 nym).
Proof.
  intros. destruct (end_to_end_full M tpl pub sv mailbox nym now0 rnd apriv anonce na h now1 now2 msg revoke priv nonce env mixto lookup epriv) as (r & out & A & B & D & E & F & _); auto.
  exists r, out. auto.
Qed.
Definition exMsg : bytes := repeat 7 (N.to_nat 4096).
Definition exPipe : res (bytes * bytes * bool * bool) :=
  do mb <- mailboxAddress [17] (str "mail." ++ MuteSystemDomain);
  do na <- newAddress toyMix exTpl mb [7; 7] 1000 3 (zk 6) (zk 7);
  do (env, mixto) <- newRelay toyMix (mkMH 0 5 6 (Some [1]) [] None) 1100 na exMsg (zk 3) (zk 8) (zk 9);
  do r <- receiveMessage toyMix exLookup 1200 env;
  do (out, adr) <- sendMessage toyMix r (zk 10);
  do (m, nym) <- receiveFromMix toyMix (tpSecret exTpl) mb out;
  Ok (mixto, adr, beq m exMsg, beq nym (pad32 [7; 7])).
Example C48_example : exPipe = Ok (str "mix@mute.one", str "11@mail.mute.one", true, true).
Proof. vm_compute. reflexivity. Qed.
(* For a mailbox server outside the system domain the relay delivers somewhere else, or the client aborts. *)
Theorem C48_other_domain_refuted : exists pub server mailbox,
  mailboxAddress pub server = Ok mailbox /\ mailbox ++ MuteSystemDomain <> hexenc pub ++ [64] ++ server /\
  mailboxAddress pub (str "a.org") = Panic.
Proof. exists [17], (str "mail.example.org"). eexists. split; [vm_compute; reflexivity|]. split; [vm_compute; discriminate|vm_compute; reflexivity]. Qed.
(* Partial: the delivery address is the mailbox exactly when the server is in the system domain. *)
Theorem C48_domain_partial : forall pub server mailbox,
  mailboxAddress pub server = Ok mailbox ->
  (mailbox ++ MuteSystemDomain = hexenc pub ++ [64] ++ server <-> exists s, server = s ++ MuteSystemDomain).
Proof.
  intros pub server mailbox. unfold mailboxAddress. destruct (lenN server <? lenN MuteSystemDomain) eqn:L; [discriminate|]. intros H.
  assert (mailbox = hexenc pub ++ [64] ++ takeN (lenN server - lenN MuteSystemDomain) server) as -> by (injection H; auto). clear H.
  rewrite <- !app_assoc. split.
  - intros E. apply app_inv_head in E. assert (E' := app_inv_head _ _ _ E). exists (takeN (lenN server - lenN MuteSystemDomain) server). symmetry. exact E'.
  - intros [s ->]. f_equal. f_equal. rewrite lenN_app. replace (lenN s + lenN MuteSystemDomain - lenN MuteSystemDomain) with (lenN s) by lia. rewrite takeN_app by reflexivity. reflexivity.
Qed.

(* ------------------------------------------------------------------ *)
(* C79: the published key list of a mix. *)
Theorem C79_stale_refuted : exists (M : MixCrypto) ops st e, let k := klRun M (str "mix") [1] 100 ops (mkKeyList [] None) in
  klStmt k = Some st /\ In e (stAddrs st) /\ klFind (maPub e) (klKeys k) = None.
Proof.
  exists toyMix, [KLAdd 0 (zk 1); KLExpire 101]. eexists. exists (mkMA (dhpub toyMix (zk 1)) 100 (str "mix") (edpub toyMix [1])).
  cbv zeta. split; [reflexivity|]. split; [left; reflexivity|reflexivity].
Qed.
(* Partial: the statement always verifies, and lists every key the mix still holds, with its expiry; missing: it may list expired keys. *)
Theorem C79_statement_partial : forall (M : MixCrypto) adr sgn dur ops,
  let k := klRun M adr sgn dur ops (mkKeyList [] None) in
  match klStmt k with
  | None => klKeys k = []
  | Some st => stVerify M st = true /\ stPub st = edpub M sgn /\
      forall pub e, In (pub, e) (klKeys k) -> In (mkMA pub (klExpire e) adr (edpub M sgn)) (stAddrs st)
  end.
Proof.
  intros M adr sgn dur ops. set (Inv := fun k : keyList => match klStmt k with
  | None => klKeys k = []
  | Some st => stVerify M st = true /\ stPub st = edpub M sgn /\
      forall pub e, In (pub, e) (klKeys k) -> In (mkMA pub (klExpire e) adr (edpub M sgn)) (stAddrs st)
  end). cbv zeta. change (Inv (klRun M adr sgn dur ops (mkKeyList [] None))).
  assert (G : forall k, Inv k -> Inv (klRun M adr sgn dur ops k)).
  { induction ops as [|o ops IH]; intros k I; [exact I|]. unfold klRun; cbn [fold_left]. apply IH. clear IH ops.
    destruct o as [t p|t]; cbn [klStep].
    - unfold addKey, updateStatement, Inv. cbn [klStmt klKeys]. split.
      + unfold stVerify, adlVerify, mkStatement. cbn [stAddrs stSig stPub]. rewrite pad32_id by apply edpub_len. rewrite pad64_id by apply edsign_len. apply edverify_sign.
      + split; [reflexivity|]. intros pub e H. unfold mkStatement, klAddrs. cbn [stAddrs].
        apply (in_map (fun x => mkMA (fst x) (klExpire (snd x)) adr (edpub M sgn))) in H. exact H.
    - unfold klExpireRun, Inv in *. cbn [klStmt klKeys]. destruct (klStmt k) as [st|].
      + destruct I as (V & P & A). split; [exact V|]. split; [exact P|]. intros pub e H. apply filter_In in H. apply A, H.
      + rewrite I. reflexivity. }
  apply G. reflexivity.
Qed.
Example C79_example : let k := klRun toyMix (str "mix") [1] 100 [KLAdd 0 (zk 1); KLAdd 50 (zk 2); KLExpire 120] (mkKeyList [] None) in
  lenN (klKeys k) = 1 /\ match klStmt k with Some st => lenN (stAddrs st) | None => 0 end = 2.
Proof. vm_compute. auto. Qed.

Print Assumptions C43_codec_refuted.
Print Assumptions C43_empty_token_refuted.
Print Assumptions C43_codec_partial.
Print Assumptions C44_nopanic_refuted.
Print Assumptions C44_decoder_partial.
Print Assumptions C44_receive_refuted.
Print Assumptions C44_receive_partial.
Print Assumptions C44_client_partial.
Print Assumptions C45_recover.
Print Assumptions C45_tamper.
Print Assumptions C46_mix_outlives.
Print Assumptions C46_expired_refused.
Print Assumptions C46_key_kept.
Print Assumptions C47_ambiguous_refuted.
Print Assumptions C47_uniform_partial.
Print Assumptions C48_end_to_end.
Print Assumptions C48_other_domain_refuted.
Print Assumptions C48_domain_partial.
Print Assumptions C79_stale_refuted.
Print Assumptions C79_statement_partial.
