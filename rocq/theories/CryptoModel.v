(* Cryptographic primitives.  The program calls them as black boxes from the Go
   standard library and golang.org/x/crypto; the model does the same: a record of
   functions with the laws that the theorems use.  Theorems quantify over every
   instance.  [toy] is one concrete instance: it shows that the laws are
   consistent and is used to run the model on concrete inputs. *)
From Verif Require Import Base.
Local Open Scope N_scope.

Record Crypto := {
  sha512 : bytes -> bytes;                       (* cipher/sha.go SHA512 *)
  sha512_len : forall m, lenN (sha512 m) = 64;
  sha512_wf : forall m, wfb (sha512 m);
  sha256 : bytes -> bytes;                       (* cipher/sha.go SHA256 *)
  sha256_len : forall m, lenN (sha256 m) = 32;
  sha256_wf : forall m, wfb (sha256 m);
  hmac512 : bytes -> bytes -> bytes;             (* cipher/hmac.go HMAC (SHA-512), key then message *)
  hmac512_len : forall k m, lenN (hmac512 k m) = 64;
  hmac512_wf : forall k m, wfb (hmac512 k m);
  hkdf512 : bytes -> N -> bytes;                 (* first n bytes of hkdf.New(sha512.New, secret, nil, nil) *)
  hkdf512_len : forall k n, lenN (hkdf512 k n) = n;
  hkdf512_wf : forall k n, wfb (hkdf512 k n);
  hkdf512_prefix : forall k n m, n <= m -> takeN n (hkdf512 k m) = hkdf512 k n;
  dhpub : bytes -> bytes;                        (* curve25519.ScalarBaseMult *)
  dhpub_len : forall a, lenN (dhpub a) = 32;
  dhpub_wf : forall a, wfb (dhpub a);
  dh : bytes -> bytes -> bytes;                  (* curve25519.ScalarMult: private key, public key *)
  dh_len : forall a p, lenN (dh a p) = 32;
  dh_wf : forall a p, wfb (dh a p);
  dh_comm : forall a b, dh a (dhpub b) = dh b (dhpub a);
  boxseal : bytes -> bytes -> bytes -> bytes -> bytes;         (* box.Seal: message, nonce, peer public key, private key *)
  boxseal_len : forall m n p a, lenN (boxseal m n p a) = lenN m + 16;
  boxseal_wf : forall m n p a, wfb m -> wfb (boxseal m n p a);
  boxopen : bytes -> bytes -> bytes -> bytes -> option bytes;  (* box.Open: box, nonce, peer public key, private key *)
  boxopen_seal : forall m n a b, boxopen (boxseal m n (dhpub b) a) n (dhpub a) b = Some m;
  ctr : bytes -> bytes -> N -> bytes;            (* first n bytes of the AES-256-CTR key stream: key, iv, n *)
  ctr_len : forall k iv n, lenN (ctr k iv n) = n;
  ctr_wf : forall k iv n, wfb (ctr k iv n);
  ctr_prefix : forall k iv n m, n <= m -> takeN n (ctr k iv m) = ctr k iv n;
  edpub : bytes -> bytes;                        (* ed25519 public key of a private key *)
  edpub_len : forall k, lenN (edpub k) = 32;
  edpub_wf : forall k, wfb (edpub k);
  edsign : bytes -> bytes -> bytes;              (* ed25519.Sign: private key, message *)
  edsign_len : forall k m, lenN (edsign k m) = 64;
  edsign_wf : forall k m, wfb (edsign k m);
  edverify : bytes -> bytes -> bytes -> bool;    (* ed25519.Verify: public key, message, signature *)
  edverify_sign : forall k m, edverify (edpub k) m (edsign k m) = true;
  cbcenc : bytes -> bytes -> bytes -> bytes;     (* AES-256 in CBC mode: key, iv, whole blocks of plaintext *)
  cbcenc_len : forall k iv m, lenN (cbcenc k iv m) = lenN m;
  cbcenc_wf : forall k iv m, wfb m -> wfb (cbcenc k iv m);
  cbcdec : bytes -> bytes -> bytes -> bytes;
  cbcdec_len : forall k iv m, lenN (cbcdec k iv m) = lenN m;
  cbcdec_enc : forall k iv m, cbcdec k iv (cbcenc k iv m) = m
}.

(* bytewise exclusive or, as in cipher.Stream.XORKeyStream *)
Fixpoint xorb (a k : bytes) : bytes :=
  match a, k with
  | x :: a', y :: k' => N.lxor x y :: xorb a' k'
  | _, _ => []
  end.
Lemma xorb_len a k : lenN a = lenN k -> lenN (xorb a k) = lenN a.
Proof.
  revert k; induction a as [|x a IH]; intros [|y k] H; try reflexivity.
  - rewrite lenN_cons, lenN_nil in H. lia.
  - rewrite !lenN_cons in H. cbn [xorb]. rewrite !lenN_cons, IH by lia. reflexivity.
Qed.
Lemma xorb_invol a k : lenN a = lenN k -> xorb (xorb a k) k = a.
Proof.
  revert k; induction a as [|x a IH]; intros [|y k] H; try reflexivity.
  - rewrite lenN_cons, lenN_nil in H. lia.
  - rewrite !lenN_cons in H. cbn [xorb]. rewrite IH by lia. f_equal.
    rewrite N.lxor_assoc, N.lxor_nilpotent. apply N.lxor_0_r.
Qed.
Lemma xorb_app a b k : lenN a <= lenN k -> xorb (a ++ b) k = xorb a (takeN (lenN a) k) ++ xorb b (dropN (lenN a) k).
Proof.
  revert k; induction a as [|x a IH]; intros k H.
  - rewrite lenN_nil, takeN_0, dropN_0. reflexivity.
  - destruct k as [|y k]; [rewrite lenN_cons, lenN_nil in H; lia|].
    rewrite !lenN_cons in *. 
    assert (T : takeN (1 + lenN a) (y :: k) = y :: takeN (lenN a) k).
    { rewrite <- (takeN_dropN (lenN a) k) at 1. apply (takeN_app (y :: takeN (lenN a) k)).
      rewrite lenN_cons, lenN_takeN. lia. }
    assert (D : dropN (1 + lenN a) (y :: k) = dropN (lenN a) k).
    { rewrite <- (takeN_dropN (lenN a) k) at 1. apply (dropN_app (y :: takeN (lenN a) k)).
      rewrite lenN_cons, lenN_takeN. lia. }
    rewrite T, D. cbn [app xorb]. rewrite IH by lia. reflexivity.
Qed.
Lemma lxor_byte x y : x < 256 -> y < 256 -> N.lxor x y < 256.
Proof.
  intros Hx Hy. destruct (N.eq_dec (N.lxor x y) 0) as [E|E]; [lia|].
  change 256 with (2 ^ 8) in *.
  assert (N.log2 (N.lxor x y) < 8).
  { apply N.le_lt_trans with (N.max (N.log2 x) (N.log2 y)); [apply N.log2_lxor|].
    destruct (N.eq_dec x 0) as [->|Hx0]; destruct (N.eq_dec y 0) as [->|Hy0].
    - cbn. lia.
    - cbn [N.log2]. assert (N.log2 y < 8) by (apply N.log2_lt_pow2; lia). lia.
    - assert (N.log2 x < 8) by (apply N.log2_lt_pow2; lia). rewrite N.max_l; [assumption|cbn; lia].
    - assert (N.log2 x < 8) by (apply N.log2_lt_pow2; lia). assert (N.log2 y < 8) by (apply N.log2_lt_pow2; lia). lia. }
  apply N.log2_lt_pow2; lia.
Qed.
Lemma xorb_wf a k : wfb a -> wfb k -> wfb (xorb a k).
Proof.
  revert k; induction a as [|x a IH]; intros [|y k] Ha Hk; cbn [xorb]; try constructor.
  - inversion Ha; inversion Hk; subst. apply lxor_byte; assumption.
  - inversion Ha; inversion Hk; subst. apply IH; assumption.
Qed.

(* ------------------------------------------------------------------ *)
(* The toy instance.                                                   *)
Fixpoint gen (f : N -> N) (n : nat) (i : N) : bytes :=
  match n with O => [] | S n' => f i :: gen f n' (i + 1) end.
Lemma lenN_gen f n i : lenN (gen f n i) = N.of_nat n.
Proof. revert i; induction n as [|n IH]; intros i; [reflexivity|]. cbn [gen]. rewrite lenN_cons, IH. lia. Qed.
Lemma wfb_gen f n i : (forall j, f j < 256) -> wfb (gen f n i).
Proof. intros H. revert i; induction n as [|n IH]; intros i; cbn [gen]; constructor; [apply H|apply IH]. Qed.
Lemma gen_app f a b i : gen f (a + b) i = gen f a i ++ gen f b (i + N.of_nat a).
Proof.
  revert i; induction a as [|a IH]; intros i; cbn [Nat.add gen app].
  - f_equal. lia.
  - rewrite IH. do 3 f_equal. lia.
Qed.
Lemma gen_prefix f n m i : n <= m -> takeN n (gen f (N.to_nat m) i) = gen f (N.to_nat n) i.
Proof.
  intros H. replace (N.to_nat m) with (N.to_nat n + (N.to_nat m - N.to_nat n))%nat by lia.
  rewrite gen_app. apply takeN_app. rewrite lenN_gen. lia.
Qed.
Definition zpad (n : nat) : bytes := repeat 0 n.
(* a 60-bit polynomial hash; cheap to evaluate, with no collisions among the few values the examples hash *)
Definition tmask : N := 1152921504606846975.
Definition thash (m : bytes) : N := fold_left (fun h c => N.land (h * 33 + c + 1) tmask) m 5381.
Definition tsha (m : bytes) : bytes := let d := be 8 (thash m) in d ++ zpad 48 ++ d.
Definition low8 (x : N) : N := N.land x 255.
Definition tstream (h : N) (i : N) : N := low8 (N.shiftr h (8 * N.land i 7) + i).
Definition tp : N := 2305843009213693951. (* 2^61 - 1 *)
Definition tpub (a : bytes) : bytes := zpad 24 ++ be 8 ((be_dec a * 9) mod tp).
Definition tdh (a p : bytes) : bytes := zpad 24 ++ be 8 ((be_dec a * be_dec p) mod tp).
Definition ttag (m n k : bytes) : bytes := zpad 8 ++ be 8 (thash (n ++ k ++ m)).
Definition tseal (m n p a : bytes) : bytes := m ++ ttag m n (tdh a p).
Definition topen (b n p a : bytes) : option bytes :=
  if lenN b <? 16 then None
  else let m := takeN (lenN b - 16) b in
       if beq (dropN (lenN b - 16) b) (ttag m n (tdh a p)) then Some m else None.

Lemma be_dec_zpad n b : be_dec (zpad n ++ b) = be_dec b.
Proof.
  unfold be_dec. rewrite fold_left_app. f_equal. unfold zpad.
  induction n as [|n IH]; [reflexivity|]. exact IH.
Qed.
Lemma tdh_comm a b : tdh a (tpub b) = tdh b (tpub a).
Proof.
  unfold tdh, tpub. do 2 f_equal.
  assert (T : tp < 256 ^ N.of_nat 8) by (vm_compute; reflexivity).
  rewrite !be_dec_zpad, !be_dec_be_id by (eapply N.lt_trans; [apply N.mod_lt; discriminate|exact T]).
  rewrite !N.mul_mod_idemp_r by discriminate. f_equal. lia.
Qed.
Lemma topen_seal m n a b : topen (tseal m n (tpub b) a) n (tpub a) b = Some m.
Proof.
  unfold topen, tseal. set (k := tdh a (tpub b)).
  assert (L : lenN (ttag m n k) = 16) by (unfold ttag; rewrite lenN_app, lenN_be; reflexivity).
  rewrite lenN_app, L. destruct (N.ltb_spec (lenN m + 16) 16); [lia|].
  replace (lenN m + 16 - 16) with (lenN m) by lia.
  rewrite takeN_app, dropN_app by reflexivity. unfold k. rewrite tdh_comm, beq_refl. reflexivity.
Qed.
Lemma low8_byte x : low8 x < 256.
Proof. unfold low8. change 255 with (N.ones 8). rewrite N.land_ones. apply N.mod_lt; discriminate. Qed.
Lemma wfb_zpad n : wfb (zpad n).
Proof. apply wfb_repeat. reflexivity. Qed.
Lemma lenN_zbe n k v : lenN (zpad n ++ be k v) = N.of_nat (n + k).
Proof. rewrite lenN_app, lenN_be. unfold zpad. rewrite lenN_repeat. lia. Qed.
Lemma wfb_zbe n k v : wfb (zpad n ++ be k v).
Proof. apply wfb_app; split; [apply wfb_zpad|apply wfb_be]. Qed.
Lemma tsha_len m : lenN (tsha m) = 64.
Proof. unfold tsha. rewrite !lenN_app, !lenN_be. reflexivity. Qed.
Lemma tsha_wf m : wfb (tsha m).
Proof. unfold tsha. rewrite !wfb_app. repeat split; try apply wfb_be. apply wfb_zpad. Qed.
Definition toy : Crypto.
Proof.
  refine {|
    sha512 := tsha;
    sha256 := fun m => zpad 24 ++ be 8 (thash m);
    hmac512 := fun k m => tsha (be 8 (lenN k) ++ k ++ m);
    hkdf512 := fun k n => let h := thash k in gen (tstream h) (N.to_nat n) 0;
    dhpub := tpub;
    dh := tdh;
    boxseal := tseal;
    boxopen := topen;
    ctr := fun k iv n => let h := thash (k ++ iv) in gen (fun i => low8 (h + i)) (N.to_nat n) 0;
    edpub := fun k => zpad 24 ++ be 8 (be_dec k + 1);
    edsign := fun k m => tsha ((zpad 24 ++ be 8 (be_dec k + 1)) ++ m);
    edverify := fun p m s => beq s (tsha (p ++ m));
    cbcenc := fun k iv m => let h := thash (k ++ iv) in xorb m (gen (fun i => low8 (h + i)) (List.length m) 0);
    cbcdec := fun k iv m => let h := thash (k ++ iv) in xorb m (gen (fun i => low8 (h + i)) (List.length m) 0) |}.
  - apply tsha_len.
  - apply tsha_wf.
  - intros; apply lenN_zbe.
  - intros; apply wfb_zbe.
  - intros; apply tsha_len.
  - intros; apply tsha_wf.
  - intros; cbv zeta; rewrite lenN_gen; lia.
  - intros; apply wfb_gen; intros; apply low8_byte.
  - intros; apply gen_prefix; assumption.
  - intros; apply lenN_zbe.
  - intros; apply wfb_zbe.
  - intros; apply lenN_zbe.
  - intros; apply wfb_zbe.
  - apply tdh_comm.
  - intros; unfold tseal, ttag. rewrite lenN_app, lenN_zbe. reflexivity.
  - intros; unfold tseal. apply wfb_app; split; [assumption|apply wfb_zbe].
  - apply topen_seal.
  - intros; cbv zeta; rewrite lenN_gen; lia.
  - intros; apply wfb_gen; intros; apply low8_byte.
  - intros; apply gen_prefix; assumption.
  - intros; apply lenN_zbe.
  - intros; apply wfb_zbe.
  - intros; apply tsha_len.
  - intros; apply tsha_wf.
  - intros; apply beq_refl.
  - intros; cbv zeta. apply xorb_len. rewrite lenN_gen. reflexivity.
  - intros; cbv zeta. apply xorb_wf; [assumption|]. apply wfb_gen; intros; apply low8_byte.
  - intros; cbv zeta. apply xorb_len. rewrite lenN_gen. reflexivity.
  - intros; cbv zeta. set (f := fun i => low8 (thash (k ++ iv) + i)).
    assert (L : lenN m = lenN (gen f (List.length m) 0)) by (rewrite lenN_gen; reflexivity).
    assert (E : List.length (xorb m (gen f (List.length m) 0)) = List.length m).
    { apply Nat2N.inj. change (lenN (xorb m (gen f (List.length m) 0)) = lenN m). apply xorb_len. exact L. }
    rewrite E. apply xorb_invol. exact L.
Defined.
