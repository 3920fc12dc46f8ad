(* Lemmas about the packet framing of MsgFormatModel. *)
From Verif Require Import Base MsgFormatModel.
Local Open Scope N_scope.

Lemma rd_app n a b : lenN a = n -> rd n (a ++ b) = Ok (a, b).
Proof. intros H. unfold rd. now rewrite read_full_app. Qed.
Lemma rd_inv n s a b : rd n s = Ok (a, b) -> s = a ++ b /\ lenN a = n.
Proof.
  unfold rd. destruct (read_full n s) as [[x y]|] eqn:E; [|discriminate].
  intros H; injection H as -> ->. apply read_full_inv; exact E.
Qed.
Lemma rd_no_panic n s : rd n s <> Panic.
Proof. unfold rd. destruct (read_full n s); discriminate. Qed.
Lemma rd_be_app k v s : (v < 256 ^ N.of_nat k) -> rd_be (N.of_nat k) (be k v ++ s) = Ok (v, s).
Proof. intros H. unfold rd_be. rewrite rd_app by apply lenN_be. cbn [rbind]. now rewrite be_dec_be_id. Qed.
Lemma rd_be_inv k s v r : wfb s -> rd_be (N.of_nat k) s = Ok (v, r) -> s = be k v ++ r /\ v < 256 ^ N.of_nat k /\ wfb r.
Proof.
  intros W. unfold rd_be. destruct (rd (N.of_nat k) s) as [[b t]| |] eqn:E; cbn [rbind]; try discriminate.
  intros H; injection H as <- <-. apply rd_inv in E as [-> L].
  apply wfb_app in W as [W1 W2].
  assert (HL : List.length b = k) by (unfold lenN in L; lia).
  pose proof (be_dec_bound b W1) as B. rewrite L in B.
  split; [|split; [exact B|exact W2]]. rewrite <- HL, be_be_dec; auto.
Qed.

(* A parser is extensible when it never looks beyond the part it consumed. *)
Definition ext {A} (p : bytes -> res (A * bytes)) : Prop :=
  (forall s v r t, p s = Ok (v, r) -> p (s ++ t) = Ok (v, r ++ t)) /\ (forall s, p s <> Panic).
Lemma ext_ret {A} (v : A) : ext (fun s => Ok (v, s)).
Proof. split; [|discriminate]. intros s w r t H; injection H as -> ->; reflexivity. Qed.
Lemma ext_err {A : Type} e : ext (fun _ => @Err (A * bytes)%type e).
Proof. split; discriminate. Qed.
Lemma ext_rd n : ext (rd n).
Proof.
  split; [|apply rd_no_panic]. intros s v r t H. apply rd_inv in H as [-> L].
  rewrite <- app_assoc. apply rd_app; exact L.
Qed.
Lemma ext_bind {A B} (p : bytes -> res (A * bytes)) (f : A -> bytes -> res (B * bytes)) :
  ext p -> (forall a, ext (f a)) -> ext (fun s => rbind (p s) (fun '(a, s') => f a s')).
Proof.
  intros [Hp Np] Hf; split.
  - intros s v r t. destruct (p s) as [[a s']| |] eqn:E; cbn [rbind]; try discriminate.
    intros H. rewrite (Hp _ _ _ t E). cbn [rbind]. apply Hf; exact H.
  - intros s. destruct (p s) as [[a s']| |] eqn:E; cbn [rbind]; try discriminate.
    + apply Hf.
    + elim (Np s E).
Qed.
Lemma ext_if {A} (b : bool) (p q : bytes -> res (A * bytes)) : ext p -> ext q -> ext (fun s => if b then p s else q s).
Proof. destruct b; auto. Qed.
Lemma ext_rd_be k : ext (rd_be k).
Proof. unfold rd_be. apply (ext_bind (rd k) (fun b s => Ok (be_dec b, s))); [apply ext_rd|intros; apply ext_ret]. Qed.

Lemma ext_readOuter : ext readOuterHeader.
Proof.
  unfold readOuterHeader. apply (ext_bind (rd_be 1)); [apply ext_rd_be|intros t].
  apply ext_if; [apply ext_err|].
  apply (ext_bind (rd_be 2)); [apply ext_rd_be|intros plen].
  apply (ext_bind (rd_be 4)); [apply ext_rd_be|intros cnt].
  apply (ext_bind (rd plen)); [apply ext_rd|intros i]. apply ext_ret.
Qed.
Lemma ext_readInner : ext readInnerHeader.
Proof.
  unfold readInnerHeader. apply (ext_bind (rd_be 1)); [apply ext_rd_be|intros t].
  apply ext_if; [apply ext_err|].
  apply (ext_bind (rd_be 2)); [apply ext_rd_be|intros plen].
  apply (ext_bind (rd_be 1)); [apply ext_rd_be|intros more].
  apply (ext_bind (rd_be 1)); [apply ext_rd_be|intros skip].
  apply (ext_bind (rd plen)); [apply ext_rd|intros i]. apply ext_ret.
Qed.
Lemma ext_readPre : ext readPreHeader.
Proof.
  unfold readPreHeader. apply (ext_bind (rd_be 2)); [apply ext_rd_be|intros v].
  apply ext_if; [apply ext_err|].
  apply (ext_bind (rd_be 2)); [apply ext_rd_be|intros ls].
  apply ext_if; [apply ext_err|].
  apply (ext_bind (rd ls)); [apply ext_rd|intros suite].
  apply ext_if; [apply ext_err|].
  apply (ext_bind (rd_be 2)); [apply ext_rd_be|intros lp].
  apply (ext_bind (rd lp)); [apply ext_rd|intros pub]. apply ext_ret.
Qed.
Lemma ext_readFirst : ext ReadFirstOuterHeader.
Proof.
  unfold ReadFirstOuterHeader. apply (ext_bind (rd_be 1)); [apply ext_rd_be|intros t].
  apply ext_if; [apply ext_err|].
  apply (ext_bind (rd_be 2)); [apply ext_rd_be|intros plen].
  apply (ext_bind (rd_be 4)); [apply ext_rd_be|intros cnt].
  apply ext_if; [apply ext_err|].
  apply (ext_bind (rd plen)); [apply ext_rd|intros pre].
  destruct (rd_be 2 pre) as [[v x]| |] eqn:E; cbn [rbind].
  - apply (ext_ret (v, pre)).
  - apply ext_err.
  - elim (proj2 (ext_rd_be 2) pre E).
Qed.

(* An extensible parser that reads back a serialised packet rejects each of its truncations. *)
Lemma ext_truncated {A} (p : bytes -> res (A * bytes)) v w pre suf :
  ext p -> p w = Ok (v, []) -> w = pre ++ suf -> suf <> [] -> exists e, p pre = Err e.
Proof.
  intros [He Hn] Hw -> Hs. destruct (p pre) as [[a r]|e|] eqn:E.
  - specialize (He _ _ _ suf E). rewrite Hw in He. injection He as _ H.
    destruct r; destruct suf; cbn in H; congruence.
  - eauto.
  - elim (Hn _ E).
Qed.

Lemma outer_type_bound t : outer_type_ok t = true -> t < 256.
Proof. unfold outer_type_ok, preHeaderPacket, encryptedHeader, cryptoSetup, hmacPacket, encryptedPacket. lia. Qed.
Lemma inner_type_bound t : inner_type_ok t = true -> t < 256.
Proof. unfold inner_type_ok, paddingType, dataType, dataSignType, signatureType. lia. Qed.

Lemma readOuter_write t c i s : outer_type_ok t = true -> c < 2 ^ 32 -> lenN i < 2 ^ 16 ->
  readOuterHeader (outer_write (newOuterHeader t c i) true ++ s) = Ok (newOuterHeader t c i, s).
Proof.
  intros Ht Hc Hi. unfold readOuterHeader, outer_write, newOuterHeader. cbn [oType oPLen oCount oInner].
  rewrite (N.mod_small _ _ Hi). rewrite <- !app_assoc.
  rewrite (rd_be_app 1) by (apply outer_type_bound in Ht; exact Ht). cbn [rbind]. rewrite Ht. cbn [negb].
  rewrite (rd_be_app 2) by exact Hi. cbn [rbind].
  rewrite (rd_be_app 4) by exact Hc. cbn [rbind].
  rewrite rd_app by reflexivity. reflexivity.
Qed.
Lemma readOuter_inv s o r : wfb s -> readOuterHeader s = Ok (o, r) ->
  s = outer_write o true ++ r /\ outer_type_ok (oType o) = true /\ oPLen o = lenN (oInner o) /\ lenN (oInner o) < 2 ^ 16 /\ oCount o < 2 ^ 32 /\ wfb r.
Proof.
  intros W. unfold readOuterHeader.
  destruct (rd_be 1 s) as [[t s1]| |] eqn:E1; cbn [rbind]; try discriminate.
  destruct (outer_type_ok t) eqn:Et; cbn [negb]; try discriminate.
  destruct (rd_be 2 s1) as [[plen s2]| |] eqn:E2; cbn [rbind]; try discriminate.
  destruct (rd_be 4 s2) as [[cnt s3]| |] eqn:E3; cbn [rbind]; try discriminate.
  destruct (rd plen s3) as [[i s4]| |] eqn:E4; cbn [rbind]; try discriminate.
  intros H; injection H as <- <-. cbn [oType oPLen oCount oInner].
  apply (rd_be_inv 1) in E1 as (-> & B1 & W1); [|exact W].
  apply (rd_be_inv 2) in E2 as (-> & B2 & W2); [|exact W1].
  apply (rd_be_inv 4) in E3 as (-> & B3 & W3); [|exact W2].
  apply rd_inv in E4 as [-> L]. apply wfb_app in W3 as [_ W4].
  unfold outer_write; cbn [oType oPLen oCount oInner]. rewrite <- !app_assoc.
  change (256 ^ N.of_nat 2) with (2 ^ 16) in B2. change (256 ^ N.of_nat 4) with (2 ^ 32) in B3.
  repeat split; auto; congruence.
Qed.
Lemma readInner_write t more c s : inner_type_ok t = true -> lenN c < 2 ^ 16 ->
  readInnerHeader (inner_write (newInnerHeader t more c) ++ s) = Ok (newInnerHeader t more c, s).
Proof.
  intros Ht Hi. unfold readInnerHeader, inner_write, newInnerHeader. cbn [iType iPLen iMore iSkip iContent].
  rewrite (N.mod_small _ _ Hi). rewrite <- !app_assoc.
  rewrite (rd_be_app 1) by (apply inner_type_bound in Ht; exact Ht). cbn [rbind]. rewrite Ht. cbn [negb].
  rewrite (rd_be_app 2) by exact Hi. cbn [rbind].
  rewrite (rd_be_app 1) by (destruct more; reflexivity). cbn [rbind].
  rewrite (rd_be_app 1) by reflexivity. cbn [rbind].
  rewrite rd_app by reflexivity. reflexivity.
Qed.
Lemma readInner_inv s o r : wfb s -> readInnerHeader s = Ok (o, r) ->
  s = inner_write o ++ r /\ inner_type_ok (iType o) = true /\ iPLen o = lenN (iContent o) /\ lenN (iContent o) < 2 ^ 16 /\ iMore o < 256 /\ iSkip o < 256.
Proof.
  intros W. unfold readInnerHeader.
  destruct (rd_be 1 s) as [[t s1]| |] eqn:E1; cbn [rbind]; try discriminate.
  destruct (inner_type_ok t) eqn:Et; cbn [negb]; try discriminate.
  destruct (rd_be 2 s1) as [[plen s2]| |] eqn:E2; cbn [rbind]; try discriminate.
  destruct (rd_be 1 s2) as [[more s3]| |] eqn:E3; cbn [rbind]; try discriminate.
  destruct (rd_be 1 s3) as [[skip s4]| |] eqn:E4; cbn [rbind]; try discriminate.
  destruct (rd plen s4) as [[i s5]| |] eqn:E5; cbn [rbind]; try discriminate.
  intros H; injection H as <- <-. cbn [iType iPLen iMore iSkip iContent].
  apply (rd_be_inv 1) in E1 as (-> & B1 & W1); [|exact W].
  apply (rd_be_inv 2) in E2 as (-> & B2 & W2); [|exact W1].
  apply (rd_be_inv 1) in E3 as (-> & B3 & W3); [|exact W2].
  apply (rd_be_inv 1) in E4 as (-> & B4 & W4); [|exact W3].
  apply rd_inv in E5 as [-> L].
  unfold inner_write; cbn [iType iPLen iMore iSkip iContent]. rewrite <- !app_assoc.
  change (256 ^ N.of_nat 2) with (2 ^ 16) in B2. change (256 ^ N.of_nat 1) with 256 in *.
  repeat split; auto; congruence.
Qed.
Lemma readPre_write pub s : lenN pub < 2 ^ 16 ->
  readPreHeader (preheader_write (newPreHeader pub) ++ s) = Ok (newPreHeader pub, s).
Proof.
  intros Hi. unfold readPreHeader, preheader_write, newPreHeader. cbn [pVersion pLenSuite pSuite pLenPub pPub].
  rewrite (N.mod_small _ _ Hi). rewrite <- !app_assoc.
  rewrite (rd_be_app 2) by reflexivity. cbn [rbind]. change (negb (Version =? Version)) with false. cbv iota.
  rewrite (rd_be_app 2) by reflexivity. cbn [rbind]. rewrite N.eqb_refl. cbn [negb].
  rewrite rd_app by reflexivity. cbn [rbind]. rewrite beq_refl. cbn [negb].
  rewrite (rd_be_app 2) by exact Hi. cbn [rbind].
  rewrite rd_app by reflexivity. reflexivity.
Qed.
Lemma readPre_inv s p r : wfb s -> readPreHeader s = Ok (p, r) ->
  s = preheader_write p ++ r /\ p = newPreHeader (pPub p) /\ lenN (pPub p) < 2 ^ 16.
Proof.
  intros W. unfold readPreHeader.
  destruct (rd_be 2 s) as [[v s1]| |] eqn:E1; cbn [rbind]; try discriminate.
  destruct (N.eqb_spec v Version) as [->|]; cbn [negb]; try discriminate.
  destruct (rd_be 2 s1) as [[ls s2]| |] eqn:E2; cbn [rbind]; try discriminate.
  destruct (N.eqb_spec ls (lenN headerCiphersuite mod 2 ^ 16)) as [->|]; cbn [negb]; try discriminate.
  destruct (rd _ s2) as [[su s3]| |] eqn:E3; cbn [rbind]; try discriminate.
  destruct (beq su headerCiphersuite) eqn:Es; cbn [negb]; try discriminate. apply beq_spec in Es as ->.
  destruct (rd_be 2 s3) as [[lp s4]| |] eqn:E4; cbn [rbind]; try discriminate.
  destruct (rd lp s4) as [[pub s5]| |] eqn:E5; cbn [rbind]; try discriminate.
  intros H; injection H as <- <-. cbn [pVersion pLenSuite pSuite pLenPub pPub].
  apply (rd_be_inv 2) in E1 as (-> & B1 & W1); [|exact W].
  apply (rd_be_inv 2) in E2 as (-> & B2 & W2); [|exact W1].
  apply rd_inv in E3 as [-> L3]. apply wfb_app in W2 as [_ W3].
  apply (rd_be_inv 2) in E4 as (-> & B4 & W4); [|exact W3].
  apply rd_inv in E5 as [-> L].
  unfold preheader_write, newPreHeader; cbn [pVersion pLenSuite pSuite pLenPub pPub]. rewrite <- !app_assoc.
  change (256 ^ N.of_nat 2) with (2 ^ 16) in B4.
  split; [reflexivity|]. subst lp. rewrite (N.mod_small (lenN pub)) by exact B4. auto.
Qed.
Lemma readFirst_write pub s : lenN pub < 2 ^ 15 ->
  let pre := preheader_write (newPreHeader pub) in
  ReadFirstOuterHeader (outer_write (newOuterHeader preHeaderPacket 0 pre) true ++ s) = Ok (Version, pre, s).
Proof.
  intros Hi pre. unfold ReadFirstOuterHeader, outer_write, newOuterHeader. cbn [oType oPLen oCount oInner].
  assert (Hp : lenN pre < 2 ^ 16).
  { unfold pre, preheader_write, newPreHeader. cbn [pVersion pLenSuite pSuite pLenPub pPub].
    rewrite !lenN_app, !lenN_be. change (lenN headerCiphersuite) with 28. change (2 ^ 15) with 32768 in Hi. change (2 ^ 16) with 65536. lia. }
  rewrite (N.mod_small _ _ Hp). rewrite <- !app_assoc.
  rewrite (rd_be_app 1) by reflexivity. cbn [rbind]. change (negb (preHeaderPacket =? preHeaderPacket)) with false. cbv iota.
  rewrite (rd_be_app 2) by exact Hp. cbn [rbind].
  rewrite (rd_be_app 4) by reflexivity. cbn [rbind]. change (negb (0 =? 0)) with false. cbv iota.
  rewrite rd_app by reflexivity. cbn [rbind].
  assert (E : rd_be 2 pre = Ok (Version, be 2 (lenN headerCiphersuite mod 2 ^ 16) ++ headerCiphersuite ++ be 2 (lenN pub mod 2 ^ 16) ++ pub)).
  { unfold pre, preheader_write, newPreHeader. cbn [pVersion pLenSuite pSuite pLenPub pPub]. apply (rd_be_app 2); reflexivity. }
  rewrite E. reflexivity.
Qed.
Lemma readFirst_inv s v pre r : wfb s -> ReadFirstOuterHeader s = Ok (v, pre, r) ->
  s = outer_write (newOuterHeader preHeaderPacket 0 pre) true ++ r /\ lenN pre < 2 ^ 16 /\
  exists q, pre = be 2 v ++ q.
Proof.
  intros W. unfold ReadFirstOuterHeader.
  destruct (rd_be 1 s) as [[t s1]| |] eqn:E1; cbn [rbind]; try discriminate.
  destruct (N.eqb_spec t preHeaderPacket) as [->|]; cbn [negb]; try discriminate.
  destruct (rd_be 2 s1) as [[plen s2]| |] eqn:E2; cbn [rbind]; try discriminate.
  destruct (rd_be 4 s2) as [[cnt s3]| |] eqn:E3; cbn [rbind]; try discriminate.
  destruct (N.eqb_spec cnt 0) as [->|]; cbn [negb]; try discriminate.
  destruct (rd plen s3) as [[i s4]| |] eqn:E4; cbn [rbind]; try discriminate.
  destruct (rd_be 2 i) as [[v' q]| |] eqn:E5; cbn [rbind]; try discriminate.
  intros H; injection H as <- <- <-.
  apply (rd_be_inv 1) in E1 as (-> & B1 & W1); [|exact W].
  apply (rd_be_inv 2) in E2 as (-> & B2 & W2); [|exact W1].
  apply (rd_be_inv 4) in E3 as (-> & B3 & W3); [|exact W2].
  apply rd_inv in E4 as [-> L]. apply wfb_app in W3 as [W3 W4].
  change (256 ^ N.of_nat 2) with (2 ^ 16) in B2. subst plen.
  split; [|split; [exact B2|]].
  - unfold outer_write, newOuterHeader; cbn [oType oPLen oCount oInner]. rewrite (N.mod_small _ _ B2), <- !app_assoc. reflexivity.
  - apply (rd_be_inv 2) in E5 as (-> & _ & _); [|exact W3]. eauto.
Qed.

Lemma lenN_outer_write o : lenN (outer_write o true) = 7 + lenN (oInner o).
Proof. unfold outer_write. rewrite !lenN_app, !lenN_be. lia. Qed.
Lemma lenN_outer_head o : lenN (outer_write o false) = 7.
Proof. unfold outer_write. rewrite !lenN_app, !lenN_be. reflexivity. Qed.
Lemma lenN_inner_write i : lenN (inner_write i) = 5 + lenN (iContent i).
Proof. unfold inner_write. rewrite !lenN_app, !lenN_be. lia. Qed.
