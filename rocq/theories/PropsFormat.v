(* Theorems for C04: packet framing. *)
From Verif Require Import Base MsgFormatModel MsgFormatProofs.
Local Open Scope N_scope.

(* the packet types of the format, listed once more by value (doc of msg/outer.go, msg/inner.go) *)
Definition outer_types : list N := [1; 2; 4; 8; 16].
Definition inner_types : list N := [1; 2; 6; 8].
Lemma outer_types_ok t : outer_type_ok t = true <-> In t outer_types.
Proof.
  unfold outer_type_ok, outer_types, preHeaderPacket, encryptedHeader, cryptoSetup, hmacPacket, encryptedPacket.
  cbn [In]. lia.
Qed.
Lemma inner_types_ok t : inner_type_ok t = true <-> In t inner_types.
Proof. unfold inner_type_ok, inner_types, paddingType, dataType, dataSignType, signatureType. cbn [In]. lia. Qed.

(* every packet is read back, and what follows it is left alone *)
Theorem C04_outer_roundtrip : forall t c payload rest,
  In t outer_types -> c < 2 ^ 32 -> lenN payload < 65536 ->
  exists o, readOuterHeader (outer_write (newOuterHeader t c payload) true ++ rest) = Ok (o, rest)
    /\ oType o = t /\ oCount o = c /\ oInner o = payload /\ oPLen o = lenN payload.
Proof.
  intros t c p r Ht Hc Hp. exists (newOuterHeader t c p). rewrite <- outer_types_ok in Ht.
  rewrite readOuter_write by assumption.
  repeat split. unfold newOuterHeader; cbn [oPLen]. apply N.mod_small. exact Hp.
Qed.
Theorem C04_inner_roundtrip : forall t more payload rest,
  In t inner_types -> lenN payload < 65536 ->
  exists i, readInnerHeader (inner_write (newInnerHeader t more payload) ++ rest) = Ok (i, rest)
    /\ iType i = t /\ iMore i = N.b2n more /\ iContent i = payload /\ iPLen i = lenN payload.
Proof.
  intros t m p r Ht Hp. exists (newInnerHeader t m p). rewrite <- inner_types_ok in Ht.
  rewrite readInner_write by assumption.
  repeat split. unfold newInnerHeader; cbn [iPLen]. apply N.mod_small. exact Hp.
Qed.
Theorem C04_preheader_roundtrip : forall pub rest, lenN pub < 65536 ->
  exists p, readPreHeader (preheader_write (newPreHeader pub) ++ rest) = Ok (p, rest)
    /\ pVersion p = 1 /\ pSuite p = str "CURVE25519 XSALSA20 POLY1305" /\ pPub p = pub.
Proof. intros pub r H. exists (newPreHeader pub). rewrite readPre_write by exact H. repeat split. Qed.
Theorem C04_first_roundtrip : forall pub rest, lenN pub < 32768 ->
  ReadFirstOuterHeader (outer_write (newOuterHeader 1 0 (preheader_write (newPreHeader pub))) true ++ rest)
  = Ok (1, preheader_write (newPreHeader pub), rest).
Proof. intros pub r H. apply readFirst_write. exact H. Qed.

(* size is the number of bytes written, unless it does not fit into 16 bits *)
Theorem C04_outer_size : forall t c payload, lenN payload <= 65528 -> outer_size (newOuterHeader t c payload) = lenN (outer_write (newOuterHeader t c payload) true).
Proof.
  intros t c payload L. rewrite lenN_outer_write. unfold outer_size, newOuterHeader. cbn [oPLen oInner]. change (2 ^ 16) with 65536. rewrite (N.mod_small (lenN payload)) by lia. rewrite N.mod_small by lia. lia.
Qed.
Example C04_outer_size_ex : outer_size (newOuterHeader cryptoSetup 1 (repeat 7 16)) = cryptoSetupSize.
Proof. vm_compute. reflexivity. Qed.

(* what is accepted has a defined type and is exactly what serialising the result would give *)
Theorem C04_outer_accepts : forall s o rest, wfb s -> readOuterHeader s = Ok (o, rest) ->
  In (oType o) outer_types /\ lenN (oInner o) < 65536 /\ oPLen o = lenN (oInner o) /\ s = outer_write o true ++ rest.
Proof.
  intros s o r W H. apply readOuter_inv in H as (E & T & P & L & _ & _); [|exact W].
  rewrite <- outer_types_ok. auto.
Qed.
Theorem C04_inner_accepts : forall s i rest, wfb s -> readInnerHeader s = Ok (i, rest) ->
  In (iType i) inner_types /\ lenN (iContent i) < 65536 /\ iPLen i = lenN (iContent i) /\ s = inner_write i ++ rest.
Proof.
  intros s o r W H. apply readInner_inv in H as (E & T & P & L & _ & _); [|exact W].
  rewrite <- inner_types_ok. auto.
Qed.
Theorem C04_preheader_accepts : forall s p rest, wfb s -> readPreHeader s = Ok (p, rest) ->
  pVersion p = 1 /\ pSuite p = str "CURVE25519 XSALSA20 POLY1305" /\ pLenPub p = lenN (pPub p) /\ s = preheader_write p ++ rest.
Proof.
  intros s p r W H. apply readPre_inv in H as (E & P & L); [|exact W].
  rewrite P; cbn [pVersion pSuite newPreHeader pLenPub pPub]. rewrite <- P.
  split; [reflexivity|]. split; [reflexivity|]. split; [apply N.mod_small; exact L|exact E].
Qed.
Theorem C04_first_accepts : forall s v pre rest, wfb s -> ReadFirstOuterHeader s = Ok (v, pre, rest) ->
  s = [1] ++ be 2 (lenN pre) ++ [0; 0; 0; 0] ++ pre ++ rest /\ exists q, pre = be 2 v ++ q.
Proof.
  intros s v p r W H. apply readFirst_inv in H as (E & L & Q); [|exact W]. split; [|exact Q].
  rewrite E. unfold outer_write, newOuterHeader; cbn [oType oPLen oCount oInner].
  rewrite (N.mod_small _ _ L). rewrite <- !app_assoc. reflexivity.
Qed.
(* an undefined type is refused whatever follows *)
Theorem C04_outer_bad_type : forall t s, t < 256 -> ~ In t outer_types ->
  readOuterHeader (t :: s) = Err "msg: invalid outer header type".
Proof.
  intros t s B H. rewrite <- outer_types_ok in H. unfold readOuterHeader.
  change (t :: s) with ([t] ++ s). replace [t] with (be 1 t) by (cbn; f_equal; lia).
  rewrite (rd_be_app 1) by exact B. cbn [rbind]. destruct (outer_type_ok t); [elim H; reflexivity|reflexivity].
Qed.
Theorem C04_inner_bad_type : forall t s, t < 256 -> ~ In t inner_types ->
  readInnerHeader (t :: s) = Err "msg: invalid inner header type".
Proof.
  intros t s B H. rewrite <- inner_types_ok in H. unfold readInnerHeader.
  change (t :: s) with ([t] ++ s). replace [t] with (be 1 t) by (cbn; f_equal; lia).
  rewrite (rd_be_app 1) by exact B. cbn [rbind]. destruct (inner_type_ok t); [elim H; reflexivity|reflexivity].
Qed.

(* every proper prefix of a packet is an error; no input at all makes a reader panic *)
Theorem C04_outer_truncated : forall t c payload pre suf,
  In t outer_types -> c < 2 ^ 32 -> lenN payload < 65536 ->
  outer_write (newOuterHeader t c payload) true = pre ++ suf -> suf <> [] -> exists e, readOuterHeader pre = Err e.
Proof.
  intros t c p pre suf Ht Hc Hp E Hs. rewrite <- outer_types_ok in Ht.
  pose proof (readOuter_write t c p [] Ht Hc Hp) as R. rewrite app_nil_r in R.
  exact (ext_truncated _ _ _ _ _ ext_readOuter R E Hs).
Qed.
Theorem C04_inner_truncated : forall t more payload pre suf,
  In t inner_types -> lenN payload < 65536 ->
  inner_write (newInnerHeader t more payload) = pre ++ suf -> suf <> [] -> exists e, readInnerHeader pre = Err e.
Proof.
  intros t m p pre suf Ht Hp E Hs. rewrite <- inner_types_ok in Ht.
  pose proof (readInner_write t m p [] Ht Hp) as R. rewrite app_nil_r in R.
  exact (ext_truncated _ _ _ _ _ ext_readInner R E Hs).
Qed.
Theorem C04_preheader_truncated : forall pub pre suf, lenN pub < 65536 ->
  preheader_write (newPreHeader pub) = pre ++ suf -> suf <> [] -> exists e, readPreHeader pre = Err e.
Proof.
  intros p pre suf Hp E Hs. pose proof (readPre_write p [] Hp) as R. rewrite app_nil_r in R.
  exact (ext_truncated _ _ _ _ _ ext_readPre R E Hs).
Qed.
Theorem C04_first_truncated : forall pub pre suf, lenN pub < 32768 ->
  outer_write (newOuterHeader 1 0 (preheader_write (newPreHeader pub))) true = pre ++ suf -> suf <> [] ->
  exists e, ReadFirstOuterHeader pre = Err e.
Proof.
  intros p pre suf Hp E Hs. pose proof (readFirst_write p [] Hp) as R. cbv zeta in R. rewrite app_nil_r in R.
  exact (ext_truncated _ _ _ _ _ ext_readFirst R E Hs).
Qed.
Theorem C04_no_panic : forall s, readOuterHeader s <> Panic /\ readInnerHeader s <> Panic
  /\ readPreHeader s <> Panic /\ ReadFirstOuterHeader s <> Panic.
Proof.
  intros s. split; [apply ext_readOuter|]. split; [apply ext_readInner|]. split; [apply ext_readPre|apply ext_readFirst].
Qed.

Example C04_ex_outer : readOuterHeader (outer_write (newOuterHeader 16 3 (str "abc")) true ++ str "tail")
  = Ok (mkOuter 16 3 3 (str "abc"), str "tail"). Proof. vm_compute; reflexivity. Qed.
Example C04_ex_inner : readInnerHeader (inner_write (newInnerHeader 6 true (str "abc")) ++ str "tail")
  = Ok (mkInner 6 3 1 0 (str "abc"), str "tail"). Proof. vm_compute; reflexivity. Qed.
Example C04_ex_bytes : outer_write (newOuterHeader 16 3 (str "abc")) true = [16; 0; 3; 0; 0; 0; 3; 97; 98; 99].
Proof. vm_compute; reflexivity. Qed.
Example C04_ex_trunc : is_ok (readOuterHeader [16; 0; 3; 0; 0; 0; 3; 97; 98]) = false. Proof. vm_compute; reflexivity. Qed.
Example C04_ex_type : readOuterHeader [3; 0; 0; 0; 0; 0; 0] = Err "msg: invalid outer header type". Proof. vm_compute; reflexivity. Qed.
Example C04_ex_pre : readPreHeader (preheader_write (newPreHeader (repeat 7 32)) ++ [9])
  = Ok (newPreHeader (repeat 7 32), [9]). Proof. vm_compute; reflexivity. Qed.
Example C04_ex_pre_size : lenN (outer_write (newOuterHeader 1 0 (preheader_write (newPreHeader (repeat 7 32)))) true) = preHeaderSize.
Proof. vm_compute; reflexivity. Qed.

Print Assumptions C04_outer_roundtrip.
Print Assumptions C04_outer_size.
Print Assumptions C04_inner_roundtrip.
Print Assumptions C04_preheader_roundtrip.
Print Assumptions C04_first_roundtrip.
Print Assumptions C04_outer_accepts.
Print Assumptions C04_inner_accepts.
Print Assumptions C04_preheader_accepts.
Print Assumptions C04_first_accepts.
Print Assumptions C04_outer_bad_type.
Print Assumptions C04_inner_bad_type.
Print Assumptions C04_outer_truncated.
Print Assumptions C04_inner_truncated.
Print Assumptions C04_preheader_truncated.
Print Assumptions C04_first_truncated.
Print Assumptions C04_no_panic.
