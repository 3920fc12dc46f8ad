(* A concrete instance of the cryptographic primitives for conversations of any length: [toy] with a hash function
   that is injective on the texts that a conversation hashes.  It shows that the hypothesis [noColl] of the theorems
   about conversations can be met, for every set of keys. *)
From Verif Require Import Base Base64Model Base64Proofs CryptoModel KeysModel ProtoModel ConvModel ConvInv.
Local Open Scope N_scope.

Definition fit (l : bytes) : bytes := takeN 64 (map low8 (l ++ zpad 64)).
Definition slice8 (t : bytes) : bytes := match b64dec t with Some b => takeN 8 (dropN 25 b) | None => [] end.
Definition isha (s : bytes) : bytes :=
  fit (if lenN s =? 32 then 1 :: s
       else if lenN s =? 352 then
         2 :: slice8 (takeN 88 s) ++ slice8 (takeN 88 (dropN 88 s)) ++ slice8 (takeN 88 (dropN 176 s)) ++ slice8 (takeN 88 (dropN 264 s))
       else 3 :: tsha s).
Lemma low8_lt x : low8 x < 256.
Proof. unfold low8. change 255 with (N.ones 8). rewrite N.land_ones. apply N.mod_lt. discriminate. Qed.
Lemma low8_id x : x < 256 -> low8 x = x.
Proof. intros H. unfold low8. change 255 with (N.ones 8). rewrite N.land_ones. apply N.mod_small. exact H. Qed.
Lemma map_low8 l : wfb l -> map low8 l = l.
Proof. induction 1 as [|x l H _ IH]; [reflexivity|]. cbn [map]. rewrite low8_id, IH by exact H. reflexivity. Qed.
Lemma fit_len l : lenN (fit l) = 64.
Proof. unfold fit. rewrite lenN_takeN, lenN_map, lenN_app. change (lenN (zpad 64)) with 64. lia. Qed.
Lemma wfb_map_low8 l : wfb (map low8 l).
Proof. induction l; cbn [map]; constructor; [apply low8_lt|assumption]. Qed.
Lemma fit_wf l : wfb (fit l).
Proof. unfold fit. apply wfb_takeN, wfb_map_low8. Qed.
Lemma fit_app l : lenN l <= 64 -> wfb l -> exists rest, fit l = l ++ rest.
Proof.
  intros L W. unfold fit. rewrite map_app, (map_low8 l W). set (z := map low8 (zpad 64)).
  exists (takeN (64 - lenN l) z). rewrite <- (takeN_dropN (64 - lenN l) z) at 1. rewrite app_assoc. apply takeN_app.
  rewrite lenN_app, lenN_takeN. unfold z. rewrite lenN_map. change (lenN (zpad 64)) with 64. lia.
Qed.
Definition toyI : Crypto.
Proof.
  refine {| sha512 := isha; sha512_len := _; sha512_wf := _;
    sha256 := sha256 toy; sha256_len := sha256_len toy; sha256_wf := sha256_wf toy;
    hmac512 := hmac512 toy; hmac512_len := hmac512_len toy; hmac512_wf := hmac512_wf toy;
    hkdf512 := hkdf512 toy; hkdf512_len := hkdf512_len toy; hkdf512_wf := hkdf512_wf toy; hkdf512_prefix := hkdf512_prefix toy;
    dhpub := dhpub toy; dhpub_len := dhpub_len toy; dhpub_wf := dhpub_wf toy;
    dh := dh toy; dh_len := dh_len toy; dh_wf := dh_wf toy; dh_comm := dh_comm toy;
    boxseal := boxseal toy; boxseal_len := boxseal_len toy; boxseal_wf := boxseal_wf toy;
    boxopen := boxopen toy; boxopen_seal := boxopen_seal toy;
    ctr := ctr toy; ctr_len := ctr_len toy; ctr_wf := ctr_wf toy; ctr_prefix := ctr_prefix toy;
    edpub := edpub toy; edpub_len := edpub_len toy; edpub_wf := edpub_wf toy;
    edsign := edsign toy; edsign_len := edsign_len toy; edsign_wf := edsign_wf toy;
    edverify := edverify toy; edverify_sign := edverify_sign toy;
    cbcenc := cbcenc toy; cbcenc_len := cbcenc_len toy; cbcenc_wf := cbcenc_wf toy;
    cbcdec := cbcdec toy; cbcdec_len := cbcdec_len toy; cbcdec_enc := cbcdec_enc toy |}.
  - intros. apply fit_len.
  - intros. apply fit_wf.
Defined.

(* public keys: eight bytes after 24 zeros *)
Definition val8 (a : bytes) : bytes := be 8 ((be_dec a * 9) mod tp).
Lemma toyI_pub a : dhpub toyI a = zpad 24 ++ val8 a.
Proof. reflexivity. Qed.
Lemma val8_len a : lenN (val8 a) = 8. Proof. apply lenN_be. Qed.
Lemma slice_pub a : slice8 (hashText toyI (dhpub toyI a)) = val8 a.
Proof.
  unfold slice8, hashText. rewrite b64dec_enc by apply sha512_wf. change (sha512 toyI) with isha. unfold isha. rewrite dhpub_len, N.eqb_refl.
  rewrite toyI_pub. destruct (fit_app (1 :: zpad 24 ++ val8 a)) as [rest ->].
  - rewrite lenN_cons, lenN_app, val8_len. change (lenN (zpad 24)) with 24. lia.
  - constructor; [lia|]. apply wfb_app. split; [apply wfbb_spec; reflexivity|apply wfb_be].
  - replace ((1 :: zpad 24 ++ val8 a) ++ rest) with ((1 :: zpad 24) ++ (val8 a ++ rest)) by (cbn [app]; rewrite <- !app_assoc; reflexivity).
    rewrite dropN_app by reflexivity. apply takeN_app, val8_len.
Qed.
Lemma four (a b c d : bytes) : lenN a = 88 -> lenN b = 88 -> lenN c = 88 -> lenN d = 88 ->
  let s := a ++ b ++ c ++ d in takeN 88 s = a /\ takeN 88 (dropN 88 s) = b /\ takeN 88 (dropN 176 s) = c /\ takeN 88 (dropN 264 s) = d.
Proof.
  intros A B D E s. unfold s. split; [apply takeN_app; exact A|]. split; [rewrite dropN_app by exact A; apply takeN_app; exact B|]. split.
  - rewrite (app_assoc a b). rewrite dropN_app by (rewrite lenN_app; lia). apply takeN_app. exact D.
  - rewrite (app_assoc a b), (app_assoc (a ++ b) c). rewrite dropN_app by (rewrite !lenN_app; lia). apply takeN_all. lia.
Qed.
Definition text4 (a b c d : bytes) : bytes :=
  hashText toyI (dhpub toyI a) ++ hashText toyI (dhpub toyI b) ++ hashText toyI (dhpub toyI c) ++ hashText toyI (dhpub toyI d).
Lemma isha_pub a : exists rest, sha512 toyI (dhpub toyI a) = (1 :: dhpub toyI a) ++ rest.
Proof.
  change (sha512 toyI) with isha. unfold isha. rewrite dhpub_len, N.eqb_refl. apply fit_app; [rewrite lenN_cons, dhpub_len; lia|].
  constructor; [lia|apply dhpub_wf].
Qed.
Lemma isha_text a b c d : exists rest, sha512 toyI (text4 a b c d) = (2 :: val8 a ++ val8 b ++ val8 c ++ val8 d) ++ rest.
Proof.
  change (sha512 toyI) with isha. unfold isha, text4. rewrite !lenN_app, !hashText_len. change (88 + (88 + (88 + 88)) =? 32) with false. change (88 + (88 + (88 + 88)) =? 352) with true. cbv iota.
  destruct (four (hashText toyI (dhpub toyI a)) (hashText toyI (dhpub toyI b)) (hashText toyI (dhpub toyI c)) (hashText toyI (dhpub toyI d))) as (E1 & E2 & E3 & E4); try apply hashText_len.
  rewrite E1, E2, E3, E4, !slice_pub. apply fit_app.
  - rewrite lenN_cons, !lenN_app, !val8_len. lia.
  - constructor; [lia|]. rewrite !wfb_app. repeat split; apply wfb_be.
Qed.
Lemma hd_app {A} (x y : A) (l l' r r' : list A) : (x :: l) ++ r = (y :: l') ++ r' -> x = y /\ l ++ r = l' ++ r'.
Proof. cbn [app]. intros H. injection H. auto. Qed.
Theorem toyI_noColl P used : noColl toyI P used.
Proof.
  intros s t Hs Ht E.
  destruct Hs as [(k & _ & ->)|(p & a & b & _ & _ & ->)], Ht as [(k' & _ & ->)|(p' & a' & b' & _ & _ & ->)].
  - destruct (isha_pub k) as [r E1]. destruct (isha_pub k') as [r' E2]. rewrite E1, E2 in E. apply hd_app in E as [_ E].
    apply app_inj_lenN in E as [E _]; [exact E|]. rewrite !dhpub_len. reflexivity.
  - destruct (isha_pub k) as [r E1]. destruct (isha_text (pSec (P p')) (pSec (P (negb p'))) a' b') as [r' E2]. unfold text4 in E2. rewrite E1, E2 in E. apply hd_app in E as [E _]. discriminate.
  - destruct (isha_pub k') as [r E1]. destruct (isha_text (pSec (P p)) (pSec (P (negb p))) a b) as [r' E2]. unfold text4 in E2. rewrite E1, E2 in E. apply hd_app in E as [E _]. discriminate.
  - destruct (isha_text (pSec (P p)) (pSec (P (negb p))) a b) as [r E1]. destruct (isha_text (pSec (P p')) (pSec (P (negb p'))) a' b') as [r' E2].
    unfold text4 in E1, E2. rewrite E1, E2 in E. clear E1 E2. apply hd_app in E as [_ E]. rewrite <- !app_assoc in E.
    apply app_inj_lenN in E as [Q1 E]; [|rewrite !val8_len; reflexivity]. apply app_inj_lenN in E as [Q2 E]; [|rewrite !val8_len; reflexivity].
    apply app_inj_lenN in E as [Q3 E]; [|rewrite !val8_len; reflexivity]. apply app_inj_lenN in E as [Q4 _]; [|rewrite !val8_len; reflexivity].
    rewrite !toyI_pub, Q1, Q2, Q3, Q4. reflexivity.
Qed.

(* a supply of private keys with different public keys *)
Definition keyN (n : N) : bytes := zpad 24 ++ be 8 n.
Lemma keyN_ok n : lenN (keyN n) = 32 /\ wfb (keyN n).
Proof.
  unfold keyN. split; [rewrite lenN_app, lenN_be; reflexivity|]. apply wfb_app. split; [apply wfbb_spec; reflexivity|apply wfb_be].
Qed.
Lemma keyN_inj n m : n < 2 ^ 50 -> m < 2 ^ 50 -> dhpub toyI (keyN n) = dhpub toyI (keyN m) -> n = m.
Proof.
  intros Hn Hm E. rewrite !toyI_pub in E. apply app_inv_head in E. unfold val8, keyN in E.
  assert (D : forall z, z < 2 ^ 50 -> be_dec (be 8 (be_dec (zpad 24 ++ be 8 z) * 9 mod tp)) = z * 9).
  { intros z Hz. rewrite be_dec_zpad. rewrite (be_dec_be_id 8 z) by (change (256 ^ N.of_nat 8) with (2 ^ 64); lia). rewrite N.mod_small by (unfold tp; lia). apply be_dec_be_id. change (256 ^ N.of_nat 8) with (2 ^ 64). lia. }
  apply (f_equal be_dec) in E. rewrite !D in E by assumption. lia.
Qed.
