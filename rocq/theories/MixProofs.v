(* Lemmas about the mix message and nym address model. *)
From Verif Require Import Base Base64Model CodecModel CryptoModel Asn1Model Asn1Proofs MixModel.
Local Open Scope N_scope.

(* A small instance, for the examples only. *)
Definition mixOf (C : Crypto) : MixCrypto.
Proof.
  refine {| mxC := C;
    hmac256 := fun k m => sha256 C (be 8 (lenN k) ++ k ++ m);
    gcmseal := fun n k m => m ++ takeN 16 (dropN 16 (sha256 C (n ++ k ++ m)));
    gcmopen := fun n k c => let m := takeN (lenN c - 16) c in
      if beq c (m ++ takeN 16 (dropN 16 (sha256 C (n ++ k ++ m)))) then Some m else None;
    lionEnc := fun k m => if lenN m <? 64 then None else Some (rev m);
    lionDec := fun k c => if lenN c <? 64 then None else Some (rev c) |}.
  - intros; apply sha256_len.
  - intros; apply sha256_wf.
  - intros. cbv zeta. set (t := takeN 16 _).
    assert (L : lenN t = 16) by (unfold t; rewrite lenN_takeN, lenN_dropN, sha256_len; reflexivity).
    assert (E : takeN (lenN (m ++ t) - 16) (m ++ t) = m) by (rewrite lenN_app, L, N.add_sub; apply takeN_app; reflexivity).
    rewrite E. fold t. rewrite beq_refl. reflexivity.
  - intros. rewrite lenN_app, lenN_takeN, lenN_dropN, sha256_len. reflexivity.
  - intros n k m W. apply wfb_app; split; [exact W|apply wfb_takeN, wfb_dropN, sha256_wf].
  - intros k m c. destruct (lenN m <? 64) eqn:E; [discriminate|]. intros H; injection H as <-. rewrite lenN_rev, E, rev_involutive. reflexivity.
  - intros k m c. destruct (lenN m <? 64) eqn:E; [discriminate|]. intros H; injection H as <-. apply lenN_rev.
  - intros k m c. destruct (lenN m <? 64) eqn:E; [discriminate|]. intros H W; injection H as <-. apply Forall_rev, W.
Defined.
Definition toyMix : MixCrypto := mixOf toy.

Lemma pad32_id b : lenN b = 32 -> pad32 b = b.
Proof. apply takeN_app. Qed.
Lemma pad32_len b : lenN (pad32 b) = 32.
Proof. unfold pad32. rewrite lenN_takeN, lenN_app, lenN_repeat. lia. Qed.
Lemma pad64_id b : lenN b = 64 -> pad64 b = b.
Proof. apply takeN_app. Qed.
Lemma sliceR_ok s lo hi : lo <= hi -> hi <= lenN s -> sliceR s lo hi = Ok (takeN (hi - lo) (dropN lo s)).
Proof. intros A B. unfold sliceR. rewrite (proj2 (N.leb_le _ _) A), (proj2 (N.leb_le _ _) B). reflexivity. Qed.
Lemma sliceR_app a b c lo hi : lo = lenN a -> hi = lo + lenN b -> sliceR (a ++ b ++ c) lo hi = Ok b.
Proof.
  intros -> ->. rewrite sliceR_ok by (rewrite ?lenN_app; lia). rewrite dropN_app by reflexivity.
  f_equal. replace (lenN a + lenN b - lenN a) with (lenN b) by lia. apply takeN_app. reflexivity.
Qed.
Lemma sliceR_len s lo hi b : sliceR s lo hi = Ok b -> lenN b = hi - lo /\ lo <= hi /\ hi <= lenN s.
Proof. unfold sliceR. destruct (lo <=? hi) eqn:A, (hi <=? lenN s) eqn:B; try discriminate. cbn [andb]. intros E; assert (b = takeN (hi - lo) (dropN lo s)) as -> by (injection E; auto). rewrite lenN_takeN, lenN_dropN. lia. Qed.

(* Sizes of encoded structures. *)
Lemma derLen_short n : n < 128 -> derLen n = [n].
Proof. intros H. unfold derLen. rewrite (proj2 (N.ltb_lt _ _) H). reflexivity. Qed.
Lemma derLen_le n : n < 2 ^ 31 -> lenN (derLen n) <= 5.
Proof.
  intros H. unfold derLen. destruct (n <? 128); [rewrite lenN_cons, (lenN_nil N); lia|].
  destruct (nbytesF_spec n H) as [K _]. rewrite lenN_cons, lenN_be. lia.
Qed.
Lemma tlv_len t b : lenN b < 2 ^ 31 -> lenN (tlv t b) <= lenN b + 6.
Proof. intros H. unfold tlv. rewrite lenN_cons, lenN_app. generalize (derLen_le (lenN b) H). lia. Qed.
Lemma tlv_ge t b : lenN b < lenN (tlv t b).
Proof. unfold tlv. rewrite lenN_cons, lenN_app. lia. Qed.
Definition dvSize (v : dv) : N := match v with DOct b => lenN b | DStr s => lenN s | _ => 0 end.
Lemma encFields_size l : forall e, encFields l = Some e -> Forall (fun v => dvSize v <= lenN e) l.
Proof.
  induction l as [|v l IH]; intros e H; [constructor|].
  cbn [encFields] in H. destruct (encField v) as [a|] eqn:A; [|discriminate]. destruct (encFields l) as [b|] eqn:B; [|discriminate].
  assert (e = a ++ b) as -> by (injection H; auto). constructor.
  - rewrite lenN_app. enough (dvSize v <= lenN a) by lia.
    destruct v; cbn [encField dvSize] in *; try lia.
    + assert (a = tlv 4 b0) as -> by (injection A; auto). generalize (tlv_ge 4 b0); lia.
    + destruct (forallb isPrintable s); [|destruct (utf8ok s); [|discriminate]].
      * assert (a = tlv 19 s) as -> by (injection A; auto). generalize (tlv_ge 19 s); lia.
      * assert (a = tlv 12 s) as -> by (injection A; auto). generalize (tlv_ge 12 s); lia.
  - eapply Forall_impl; [|apply (IH b eq_refl)]. cbn. intros x Hx. rewrite lenN_app. lia.
Qed.
Lemma derMarshal_size l e : derMarshal l = Some e -> Forall (fun v => dvSize v < lenN e) l.
Proof.
  unfold derMarshal. destruct (encFields l) as [b|] eqn:B; [|discriminate]. intros H. assert (e = tlv 48 b) as -> by (injection H; auto).
  eapply Forall_impl; [|apply (encFields_size _ _ B)]. cbn. intros v Hv. generalize (tlv_ge 48 b). lia.
Qed.
(* The decoder returns a value of the requested type for every field. *)
Definition dvHas (t : dt) (v : dv) : Prop :=
  match t, v with TInt32, DInt _ => True | TInt64, DInt _ => True | TBool, DBool _ => True | TOct, DOct _ => True | TStr, DStr _ => True | _, _ => False end.
Lemma decField_has t s v r : decField t s = Ok (v, r) -> dvHas t v.
Proof.
  destruct t; cbn [decField]; intros H;
    match type of H with rbind (parseTLV ?g ?x) _ = _ => destruct (parseTLV g x) as [[[tg b] r']| |]; cbn [rbind] in H; try discriminate end.
  - destruct (parseInt64 b) as [z| |]; cbn [rbind] in H; try discriminate. destruct ((z <? -2147483648)%Z || (2147483647 <? z)%Z); try discriminate.
    assert (DInt z = v) as <- by (injection H; auto). exact I.
  - destruct (parseInt64 b) as [z| |]; cbn [rbind] in H; try discriminate. assert (DInt z = v) as <- by (injection H; auto). exact I.
  - destruct b as [|x [|]]; try discriminate. destruct (x =? 0); [|destruct (x =? 255); [|discriminate]].
    + assert (DBool false = v) as <- by (injection H; auto). exact I.
    + assert (DBool true = v) as <- by (injection H; auto). exact I.
  - assert (DOct b = v) as <- by (injection H; auto). exact I.
  - destruct (tg =? 19); [destruct (forallb _ b)|destruct (utf8ok b)]; try discriminate; assert (DStr b = v) as <- by (injection H; auto); exact I.
Qed.
Lemma decFields_has ts : forall s l, decFields ts s = Ok l -> Forall2 dvHas ts l.
Proof.
  induction ts as [|t ts IH]; intros s l H; cbn [decFields] in H.
  - assert (l = []) as -> by (injection H; auto). constructor.
  - destruct (decField t s) as [[v r]| |] eqn:E; cbn [rbind] in H; try discriminate.
    destruct (decFields ts r) as [l'| |] eqn:E'; cbn [rbind] in H; try discriminate.
    assert (l = v :: l') as -> by (injection H; auto). constructor; [eapply decField_has; exact E|eapply IH; exact E'].
Qed.
Lemma derUnmarshal_has ts s l : derUnmarshal ts s = Ok l -> Forall2 dvHas ts l.
Proof. unfold derUnmarshal. destruct (parseTLV [48] s) as [[[tg b] r]| |]; cbn [rbind]; try discriminate. apply decFields_has. Qed.
Ltac shape H := (* H : Forall2 dvHas (constructors) l *)
  repeat match type of H with
  | Forall2 _ (_ :: _) _ => let v := fresh "v" in let l' := fresh "l" in let X := fresh "X" in let E := fresh "E" in
      inversion H as [|? v ? l' X Y E E']; clear H; subst; rename Y into H; destruct v; cbn [dvHas] in X; try contradiction; clear X
  end; match type of H with Forall2 _ [] _ => inversion H; clear H; subst end.
Lemma mh_shape s l : derUnmarshal mhTypes s = Ok l -> exists t mi ma tok ad rev, l = [DInt t; DInt mi; DInt ma; DOct tok; DOct ad; DOct rev].
Proof. intros H. apply derUnmarshal_has in H. unfold mhTypes in H. shape H. repeat eexists. Qed.
Lemma na_shape s l : derUnmarshal naTypes s = Ok l -> exists mix ex su tok mp ak pd, l = [DOct mix; DInt ex; DBool su; DOct tok; DOct mp; DOct ak; DOct pd].
Proof. intros H. apply derUnmarshal_has in H. unfold naTypes in H. shape H. repeat eexists. Qed.
Lemma np_shape s l : derUnmarshal npTypes s = Ok l -> exists sy ad ex su mi ma no rp en hm, l = [DInt sy; DOct ad; DInt ex; DBool su; DInt mi; DInt ma; DOct no; DOct rp; DOct en; DOct hm].
Proof. intros H. apply derUnmarshal_has in H. unfold npTypes in H. shape H. repeat eexists. Qed.
Lemma rh_shape s l : derUnmarshal rhTypes s = Ok l -> exists se no rp en hm, l = [DOct se; DOct no; DOct rp; DOct en; DOct hm].
Proof. intros H. apply derUnmarshal_has in H. unfold rhTypes in H. shape H. repeat eexists. Qed.
Ltac forall2 := repeat match goal with |- Forall2 _ _ _ => constructor end.
Ltac invF H := repeat match type of H with Forall _ (_ :: _) => let H1 := fresh "Sz" in apply Forall_cons_iff in H; destruct H as [H1 H]; cbn [dvSize] in H1 end.
Definition int32ok (z : Z) : Prop := (- 2 ^ 31 <= z < 2 ^ 31)%Z.
Definition int64ok (z : Z) : Prop := (- 2 ^ 63 <= z < 2 ^ 63)%Z.

(* ------------------------------------------------------------------ *)
(* The mix header. *)
Definition mhWf (h : mixHeader) : Prop :=
  int32ok (mhType h) /\ int32ok (mhMin h) /\ int32ok (mhMax h) /\
  mhToken h <> Some [] /\ mhToken h <> Some [0] /\ mhRevoke h <> Some [] /\ mhRevoke h <> Some [0] /\
  (mhType h = MessageTypeForward -> mhRevoke h = None) /\
  lenN (mhMarshal h) <= 65535.

Lemma mhMarshal_some h : exists d, derMarshal (mhFields h) = Some d /\ mhMarshal h = be 2 (lenN d) ++ d.
Proof. unfold mhMarshal. destruct (derMarshal (mhFields h)) as [d|] eqn:E; [eauto|]. unfold derMarshal, mhFields in E. cbn [encFields encField] in E. discriminate. Qed.

Lemma oct_none (t : bytes) : t <> [] -> exists a r, t = a :: r /\ (if (a =? 0) && (lenN t =? 1) then None else Some t) = (if beq t [0] then None else Some t).
Proof.
  destruct t as [|a r]; [congruence|]. intros _. exists a, r. split; [reflexivity|]. cbn [beq].
  destruct (a =? 0); cbn [andb]; [|reflexivity]. rewrite lenN_cons. destruct r; [reflexivity|]. rewrite lenN_cons. destruct (1 + (1 + lenN r) =? 1) eqn:E; [lia|reflexivity].
Qed.

Lemma mhUnmarshal_marshal h r : mhWf h -> mhUnmarshal (mhMarshal h ++ r) = Ok (h, lenN (mhMarshal h)).
Proof.
  intros (T1 & T2 & T3 & N1 & N2 & N3 & N4 & F & L).
  destruct (mhMarshal_some h) as (d & E & Em). rewrite Em in *. rewrite lenN_app, lenN_be in L. change (N.of_nat 2) with 2 in L.
  assert (Dl : 0 < lenN d). { revert E. unfold derMarshal. destruct (encFields _); [|discriminate]. intros H. assert (d = tlv 48 b) as -> by (injection H; auto). generalize (tlv_ge 48 b); lia. }
  unfold mhUnmarshal. rewrite !lenN_app, lenN_be. change (N.of_nat 2) with 2.
  replace (2 + lenN d + lenN r <? 3) with false by lia.
  rewrite <- app_assoc. rewrite takeN_app by (rewrite lenN_be; reflexivity).
  rewrite be_dec_be_id by (change (256 ^ N.of_nat 2) with 65536; lia).
  replace ((lenN d + 2) mod 65536) with (lenN d + 2) by lia. cbv zeta.
  replace (2 + lenN d + lenN r <? lenN d + 2) with false by lia.
  rewrite (sliceR_app (be 2 (lenN d)) d r) by (rewrite ?lenN_be; change (N.of_nat 2) with 2; lia). cbn [rbind].
  assert (Sz := derMarshal_size _ _ E). unfold mhFields in Sz. invF Sz.
  replace (derUnmarshal mhTypes d) with (Ok (mhFields h)).
  2:{ rewrite <- (app_nil_r d). symmetry. apply derUnmarshal_marshal; [|exact E|lia].
      unfold mhTypes, mhFields, int32ok in *. repeat constructor; cbn [dvOk]; lia. }
  cbn [rbind]. unfold mhFields.
  destruct (oct_none match mhToken h with None => [0] | Some t => t end) as (t0 & tr & Et & Et'); [destruct (mhToken h) eqn:?; [intros ->; contradiction|discriminate]|].
  rewrite Et, <- Et. rewrite Et'.
  destruct (oct_none (if (mhType h =? MessageTypeForward)%Z then [0] else match mhRevoke h with None => [0] | Some t => t end)) as (r0 & rr & Er & Er').
  { destruct (mhType h =? MessageTypeForward)%Z; [discriminate|]. destruct (mhRevoke h) eqn:?; [intros ->; contradiction|discriminate]. }
  rewrite Er, <- Er.
  f_equal. f_equal; [|lia].
  assert (A : (if beq match mhToken h with None => [0] | Some t => t end [0] then None else Some match mhToken h with None => [0] | Some t => t end) = mhToken h).
  { destruct (mhToken h) as [t|] eqn:Tk; [|reflexivity]. destruct (beq t [0]) eqn:B; [apply beq_spec in B; elim N2; rewrite ?Tk; rewrite B; reflexivity|reflexivity]. }
  rewrite A.
  assert (B : forall x : bytes, (if ((r0 =? 0) && (lenN x =? 1) || (mhType h =? MessageTypeForward)%Z)%bool then None else Some x) = (if (mhType h =? MessageTypeForward)%Z then None else if (r0 =? 0) && (lenN x =? 1) then None else Some x)).
  { intros x. destruct (mhType h =? MessageTypeForward)%Z; [rewrite orb_true_r|rewrite orb_false_r]; reflexivity. }
  rewrite B, Er'. destruct h as [ty mi ma tok ad rev]. cbn [mhType mhMin mhMax mhToken mhAddress mhRevoke] in *.
  f_equal. destruct (ty =? MessageTypeForward)%Z eqn:Ft.
  - symmetry. apply F. lia.
  - destruct rev as [t|]; [|reflexivity]. destruct (beq t [0]) eqn:Bt; [apply beq_spec in Bt; elim N4; rewrite Bt; reflexivity|reflexivity].
Qed.

(* ------------------------------------------------------------------ *)
Section MixP.
Variable M : MixCrypto.

Lemma encryptNym_len k n : lenN (encryptNym M k n) = 34.
Proof. unfold encryptNym. cbv zeta. rewrite xorb_len; rewrite ?lenN_takeN, ?lenN_app, ?lenN_repeat, ?ctr_len, ?lenN_cons; [|lia]. lia. Qed.
Lemma decryptNym_enc k n : lenN n = 32 -> decryptNym M k (encryptNym M k n) = Ok n.
Proof.
  intros L. unfold decryptNym. rewrite encryptNym_len. unfold encryptNym. cbv zeta.
  rewrite (takeN_all n) by lia. rewrite L.
  rewrite xorb_invol by (rewrite lenN_takeN, !lenN_app, lenN_repeat, ctr_len, lenN_cons; lia).
  change (32 mod 33) with 32.
  replace (takeN 34 ([32] ++ n ++ repeat 0 33)) with ([32] ++ n ++ [0]).
  2:{ symmetry. transitivity (takeN 34 (([32] ++ n ++ [0]) ++ repeat 0 32)).
      - f_equal. rewrite <- !app_assoc. reflexivity.
      - apply takeN_app. rewrite !lenN_app, L. reflexivity. }
  change ([32] ++ n ++ [0]) with (32 :: (n ++ [0])). cbv iota. change (32 :: (n ++ [0])) with ([32] ++ n ++ [0]).
  apply sliceR_app; [reflexivity|]. lia.
Qed.

(* The address as NewAddress builds it. *)
Definition builtPrivate (tpl : addrTemplate) (mailbox nym0 nonce : bytes) : nymPrivate :=
  let nym := pad32 nym0 in
  let recv := dhpub M (genDetermPriv M (tpSecret tpl) nonce nym) in
  let symkey := genSymKey M (tpSecret tpl) nonce recv mailbox in
  let enc := encryptNym M symkey nym in
  mkNP (tpSystem tpl) mailbox (tpExpire tpl) (tpSingle tpl) (tpMin tpl) (tpMax tpl) nonce recv enc (headHMAC M symkey nonce recv enc).

Lemma lift_ok {A} (o : option A) e a : lift o e = Ok a -> o = Some a.
Proof. destruct o; cbn; [intros H; assert (a0 = a) as -> by (injection H; auto); reflexivity|discriminate]. Qed.

Lemma newAddress_inv tpl mailbox nym now rnd apriv nonce a :
  newAddress M tpl mailbox nym now rnd apriv nonce = Ok a ->
  exists mix pm pe, adlRand rnd (adlExpire (tpExpire tpl) now (tpMixes tpl)) = Some mix /\
    derMarshal (npFields (builtPrivate tpl mailbox nym nonce)) = Some pm /\
    lionEnc M (dh M apriv (pad32 (maPub mix))) pm = Some pe /\
    derMarshal (naFields (mkNA (maAddress mix) (tpExpire tpl) (tpSingle tpl) (maToken mix) (maPub mix) (dhpub M apriv) pe)) = Some a.
Proof.
  unfold newAddress. cbv zeta. destruct (adlRand _ _) as [mix|] eqn:R; [|discriminate]. fold (builtPrivate tpl mailbox nym nonce).
  intros H. change (mkNP (tpSystem tpl) mailbox (tpExpire tpl) (tpSingle tpl) (tpMin tpl) (tpMax tpl) nonce _ _ _) with (builtPrivate tpl mailbox nym nonce) in H.
  destruct (lift (derMarshal (npFields (builtPrivate tpl mailbox nym nonce))) _) as [pm| |] eqn:P; try discriminate. cbn [rbind] in H.
  destruct (lift (lionEnc M (dh M apriv (pad32 (maPub mix))) pm) _) as [pe| |] eqn:Q; try discriminate. cbn [rbind] in H.
  apply lift_ok in P, Q, H. exists mix, pm, pe. auto.
Qed.

Definition tplWf (tpl : addrTemplate) : Prop := int32ok (tpSystem tpl) /\ int64ok (tpExpire tpl) /\ int32ok (tpMin tpl) /\ int32ok (tpMax tpl).

Lemma parse_built tpl mix apriv pe a now :
  int64ok (tpExpire tpl) -> lenN a < 2 ^ 31 ->
  derMarshal (naFields (mkNA (maAddress mix) (tpExpire tpl) (tpSingle tpl) (maToken mix) (maPub mix) (dhpub M apriv) pe)) = Some a ->
  parseAddress now a = if (tpExpire tpl <? now)%Z then Err "nymaddr: expired" else
    Ok (mkNA (maAddress mix) (tpExpire tpl) (tpSingle tpl) (maToken mix) (maPub mix) (dhpub M apriv) pe).
Proof.
  intros W L E. unfold parseAddress. assert (Sz := derMarshal_size _ _ E). unfold naFields in Sz. invF Sz. cbn [naMix naExpire naSingle naToken naMixPub naKey naPriv] in *.
  rewrite <- (app_nil_r a). rewrite (derUnmarshal_marshal _ _ a [] ) with (2 := E); [reflexivity| |exact L].
  unfold naTypes, naFields, int64ok in *. cbn [naMix naExpire naSingle naToken naMixPub naKey naPriv]. repeat constructor; cbn [dvOk]; try exact I; lia.
Qed.

Lemma getMixData_built tpl mailbox nym nonce mix pm pe apriv a lookup priv :
  tplWf tpl -> lenN a < 2 ^ 31 ->
  derMarshal (npFields (builtPrivate tpl mailbox nym nonce)) = Some pm ->
  lionEnc M (dh M apriv (pad32 (maPub mix))) pm = Some pe ->
  derMarshal (naFields (mkNA (maAddress mix) (tpExpire tpl) (tpSingle tpl) (maToken mix) (maPub mix) (dhpub M apriv) pe)) = Some a ->
  lookup (pad32 (maPub mix)) = Some priv -> pad32 (maPub mix) = dhpub M priv ->
  getMixData M lookup (mkNA (maAddress mix) (tpExpire tpl) (tpSingle tpl) (maToken mix) (maPub mix) (dhpub M apriv) pe) = Ok (builtPrivate tpl mailbox nym nonce).
Proof.
  intros (W1 & W2 & W3 & W4) L Epm Epe Ea Lk Pk. unfold getMixData. cbn [naMixPub naKey naPriv]. rewrite Lk.
  rewrite (pad32_id (dhpub M apriv)) by apply dhpub_len.
  rewrite Pk, dh_comm in Epe.
  rewrite (lionDec_enc M _ _ _ Epe). cbn [lift rbind].
  assert (Sz := derMarshal_size _ _ Ea). unfold naFields in Sz. invF Sz. cbn [naPriv] in *.
  assert (Lp := lionEnc_len M _ _ _ Epe).
  assert (Sp := derMarshal_size _ _ Epm). unfold npFields in Sp. invF Sp.
  rewrite <- (app_nil_r pm). rewrite (derUnmarshal_marshal _ _ pm []) with (2 := Epm); [| |lia].
  - cbn [rbind npFields]. destruct (builtPrivate tpl mailbox nym nonce); reflexivity.
  - unfold npTypes, npFields, int32ok, int64ok in *. repeat constructor; cbn [dvOk builtPrivate npSystem npExpire npMin npMax]; try exact I; try lia.
Qed.

Lemma header_len se no rp en hm d : lenN se = 32 -> lenN no = 32 -> lenN rp = 32 -> lenN en = 34 -> lenN hm = 32 ->
  derMarshal (rhFields (mkRH se no rp en hm)) = Some d -> lenN d = 175.
Proof.
  intros L1 L2 L3 L4 L5. unfold derMarshal, rhFields. cbn [encFields encField rhSender rhNonce rhRecv rhEncNym rhHMAC]. intros H.
  assert (E : d = tlv 48 (tlv 4 se ++ tlv 4 no ++ tlv 4 rp ++ tlv 4 en ++ tlv 4 hm ++ [])) by (injection H; auto). subst d.
  assert (B : lenN (tlv 4 se ++ tlv 4 no ++ tlv 4 rp ++ tlv 4 en ++ tlv 4 hm ++ []) = 172).
  { rewrite app_nil_r. unfold tlv. rewrite L1, L2, L3, L4, L5. rewrite !derLen_short by lia. rewrite !lenN_app, !lenN_cons, !lenN_app, !lenN_cons, !(lenN_nil N). lia. }
  unfold tlv at 1. rewrite B, lenN_cons, lenN_app, B. reflexivity.
Qed.

Lemma getPrivate_built tpl mailbox nym nonce epriv d secret :
  lenN nonce = 32 -> getHeader M (builtPrivate tpl mailbox nym nonce) epriv = Ok (d, secret) ->
  lenN d = 175 /\ getPrivate M (tpSecret tpl) d mailbox = Ok (pad32 nym, secret).
Proof.
  intros Ln. unfold getHeader. set (p := builtPrivate tpl mailbox nym nonce).
  destruct (derMarshal _) as [d'|] eqn:E; [|discriminate]. cbn [lift rbind]. intros H.
  assert (d' = d) as -> by (injection H; auto). assert (Es : secret = dh M epriv (pad32 (npRecv p))) by (injection H; auto). clear H. subst secret.
  assert (R : lenN (npRecv p) = 32) by apply dhpub_len.
  assert (L : lenN d = 175).
  { apply (header_len _ _ _ _ _ _) with (6 := E); [apply dhpub_len|exact Ln|exact R|apply encryptNym_len|apply hmac256_len]. }
  split; [exact L|]. unfold getPrivate.
  rewrite <- (app_nil_r d). rewrite (derUnmarshal_marshal _ _ d []) with (2 := E); [| |lia].
  - cbn [rbind rhFields rhSender rhNonce rhRecv rhEncNym rhHMAC].
    unfold p at 1 2 3 4. cbn [builtPrivate npNonce npRecv npEncNym npHMAC]. rewrite beq_refl. cbn [negb].
    unfold p at 1 2 3. cbn [builtPrivate npNonce npRecv npEncNym npHMAC].
    rewrite decryptNym_enc by apply pad32_len. cbn [rbind]. rewrite beq_refl. cbn [negb].
    f_equal. f_equal. rewrite (pad32_id (dhpub M epriv)) by apply dhpub_len. rewrite dh_comm. f_equal. symmetry. apply pad32_id. exact R.
  - assert (Sz := derMarshal_size _ _ E). unfold rhFields in Sz. invF Sz.
    unfold rhTypes, rhFields. repeat constructor; cbn [dvOk]; lia.
Qed.

(* ------------------------------------------------------------------ *)
(* The envelope. *)
Lemma mixDecrypt_encrypt lookup k priv nonce d :
  lookup (dhpub M k) = Some k -> lenN nonce = 32 ->
  mixDecrypt M lookup (mixEncrypt M (dhpub M k) priv nonce d) = Ok d.
Proof.
  intros Lk Ln. unfold mixDecrypt, mixEncrypt.
  set (c := gcmseal M _ _ d).
  assert (Lc : lenN c = lenN d + 16) by apply gcmseal_len.
  rewrite !lenN_app, !dhpub_len, Ln. replace (32 + (32 + (32 + lenN c)) <=? 96) with false by lia.
  rewrite takeN_app by apply dhpub_len. rewrite Lk. cbv zeta.
  rewrite (dropN_app (dhpub M k) _ 32) by apply dhpub_len. rewrite takeN_app by apply dhpub_len.
  replace (dropN 64 (dhpub M k ++ dhpub M priv ++ nonce ++ c)) with (nonce ++ c)
    by (symmetry; rewrite app_assoc; apply dropN_app; rewrite lenN_app, !dhpub_len; reflexivity).
  replace (dropN 96 (dhpub M k ++ dhpub M priv ++ nonce ++ c)) with c
    by (symmetry; rewrite !app_assoc; apply dropN_app; rewrite !lenN_app, !dhpub_len, Ln; reflexivity).
  rewrite takeN_app by exact Ln. unfold c, sharedSecret. rewrite (dh_comm M k priv), gcmopen_seal. reflexivity.
Qed.

Lemma receiveFromMix_sent secret mailbox nym sec hc m :
  lenN hc < 65536 -> getPrivate M secret hc mailbox = Ok (nym, sec) ->
  receiveFromMix M secret mailbox (be 2 (lenN hc) ++ hc ++ gcmseal M (takeN 12 (sha256 M hc)) sec m) = Ok (m, nym).
Proof.
  intros L G. unfold receiveFromMix. rewrite !lenN_app, lenN_be. change (N.of_nat 2) with 2.
  set (c := gcmseal M _ _ m). replace (2 + (lenN hc + lenN c) <? 2) with false by lia.
  rewrite takeN_app by (rewrite lenN_be; reflexivity). rewrite be_dec_be_id by (change (256 ^ N.of_nat 2) with 65536; lia). cbv zeta.
  replace (2 + (lenN hc + lenN c) <? 2 + lenN hc) with false by lia.
  rewrite dropN_app by (rewrite lenN_be; reflexivity). rewrite takeN_app by reflexivity. rewrite G. cbn [rbind].
  replace (dropN (2 + lenN hc) (be 2 (lenN hc) ++ hc ++ c)) with c
    by (symmetry; rewrite app_assoc; apply dropN_app; rewrite lenN_app, lenN_be; reflexivity).
  unfold c. rewrite gcmopen_seal. reflexivity.
Qed.
End MixP.
