(* Lengths and round trips of the message header (HeaderModel). *)
From Verif Require Import Base Base64Model Base64Proofs CodecModel CodecProofs JsonModel JsonProofs CryptoModel StoreModel KeysModel KeysProofs MsgFormatModel MsgFormatProofs HeaderModel.
Local Open Scope N_scope.

Definition plain (s : bytes) : Prop := forallb jplain s = true.
Lemma escs_app a b : escs (a ++ b) = escs a + escs b.
Proof. unfold escs. rewrite flat_map_app. apply lenN_app. Qed.
Lemma escs_of_plain s : plain s -> escs s = lenN s.
Proof. intros H. unfold escs. rewrite escs_plain by exact H. reflexivity. Qed.
Lemma plain_app a b : plain (a ++ b) <-> plain a /\ plain b.
Proof. apply forallb_app_iff. Qed.
Lemma plain_b64enc b : plain (b64enc b).
Proof.
  assert (H : forall n, jplain (b64char n) = true).
  { intros n. unfold jplain. pose proof (b64char_cases n). lia. }
  unfold plain. induction b as [| | |a b c l IH] using list_ind3; cbn [b64enc forallb];
    rewrite ?H, ?IH; reflexivity.
Qed.
Lemma plain_decimal u : plain (decimal u).
Proof.
  unfold plain. pose proof (decimal_digits u) as H. revert H.
  induction (decimal u) as [|c l IH]; [reflexivity|]. cbn [forallb]. intros H.
  apply andb_true_iff in H as [H1 H2]. rewrite IH by exact H2.
  replace (jplain c) with true; [reflexivity|]. unfold is_digit in H1. unfold jplain. lia.
Qed.
Lemma plain_hexenc b : wfb b -> plain (hexenc b).
Proof.
  unfold plain. intros H. induction H as [|x l Hx _ IH]; [reflexivity|].
  cbn [hexenc forallb]. rewrite IH. unfold byte in Hx.
  assert (H0 : forall n, n < 16 -> jplain (hexchar n) = true).
  { intros n Hn. pose proof (hexchar_cases n Hn). unfold jplain. lia. }
  rewrite !H0 by lia. reflexivity.
Qed.
Lemma plain_takeN n s : plain s -> plain (takeN n s).
Proof. apply forallb_takeN. Qed.
Lemma escs_bound s : escs s <= 6 * lenN s.
Proof.
  induction s as [|c s IH]; [vm_compute; discriminate|]. unfold escs in *. cbn [flat_map]. rewrite lenN_app, lenN_cons.
  assert (lenN (jesc c) <= 6); [|lia].
  unfold jesc. repeat match goal with |- context [if ?b then _ else _] => destruct b end; vm_compute; discriminate.
Qed.
Lemma escs_min s : lenN s <= escs s.
Proof.
  unfold escs, lenN. pose proof (flat_map_jesc_length s). lia.
Qed.
Lemma escs_jstr s : plain s -> escs (jstr s) = 4 + lenN s.
Proof.
  intros H. unfold jstr. rewrite escs_plain by exact H. rewrite !escs_app, (escs_of_plain s) by exact H.
  change (escs [34]) with 2. lia.
Qed.

Ltac clen :=
  repeat match goal with
  | |- context [lenN (str ?s)] => let v := eval vm_compute in (lenN (str s)) in change (lenN (str s)) with v
  | |- context [escs (str ?s)] => let v := eval vm_compute in (escs (str s)) in change (escs (str s)) with v
  | |- context [lenN [?n]] => change (lenN [n]) with 1
  | |- context [escs [?n]] => let v := eval vm_compute in (escs [n]) in change (escs [n]) with v
  | |- context [lenN JNull] => idtac
  end.

(* a key entry of the shape InitDHKey and initSigKey produce, as far as lengths go *)
Definition keLen (fl : N) (ke : keyEntry) : Prop :=
  keSuite ke = DefaultCiphersuite /\ lenN (keFunc ke) = fl /\ plain (keFunc ke) /\
  lenN (keHash ke) = 88 /\ plain (keHash ke) /\ lenN (kePub ke) = 44 /\ plain (kePub ke).
Lemma keLen_init C p : keLen 10 (initDHKey C p).
Proof.
  unfold keLen, initDHKey. cbn [keSuite keFunc keHash kePub].
  rewrite !lenN_b64enc, sha512_len, dhpub_len. repeat split; try apply plain_b64enc; reflexivity.
Qed.
Lemma ke_json_len fl ke : keLen fl ke -> lenN (jprint (keToJson ke)) = 237 + fl.
Proof.
  intros (H1 & H2 & H3 & H4 & H5 & H6 & H7). unfold keToJson. rewrite jprint_obj. cbn [pmlist].
  change (jprint (JStr ?s)) with (jstr s). unfold jprint; fold jprint.
  rewrite !lenN_app, !lenN_jstr. rewrite !(escs_of_plain) by (assumption || (rewrite H1; reflexivity) || reflexivity).
  rewrite H1, H2, H4, H6. unfold DefaultCiphersuite. clen. lia.
Qed.
Lemma ke_json_esc fl ke : keLen fl ke -> escs (jprint (keToJson ke)) = 253 + fl.
Proof.
  intros (H1 & H2 & H3 & H4 & H5 & H6 & H7). unfold keToJson. rewrite jprint_obj. cbn [pmlist].
  unfold jprint; fold jprint.
  rewrite !escs_app, !escs_jstr by (assumption || (rewrite H1; reflexivity) || reflexivity).
  rewrite H1, H2, H4, H6. unfold DefaultCiphersuite. clen. lia.
Qed.

(* ---- round trips ---- *)
Lemma keOfJson_to ke : keOfJson (keToJson ke) = Some ke.
Proof. destruct ke; reflexivity. Qed.
Lemma dec_list_map {A} (f : json -> option A) g l : (forall a, f (g a) = Some a) -> dec_list f (map g l) = Some l.
Proof. intros H. induction l as [|x l IH]; [reflexivity|]. cbn [map dec_list]. rewrite H, IH. reflexivity. Qed.
Lemma dec_arr_strs l : dec_arr ostr (Some (jstrs l)) = Some l.
Proof. destruct l as [|x l]; [reflexivity|]. cbn [jstrs dec_arr]. apply (dec_list_map ostr JStr). reflexivity. Qed.
Lemma dec_arr_kes l : dec_arr keOfJson (Some (jkes l)) = Some l.
Proof. destruct l as [|x l]; [reflexivity|]. cbn [jkes dec_arr]. apply (dec_list_map keOfJson keToJson). apply keOfJson_to. Qed.
Lemma dec_ptr_ke o : dec_ptr keOfJson (Some (jopt keToJson o)) = Some o.
Proof. destruct o as [k|]; [|reflexivity]. destruct k; reflexivity. Qed.
Lemma dec_ke_to k : dec_ke (Some (keToJson k)) = Some k.
Proof. apply keOfJson_to. Qed.
Lemma chainOfJson_to c : chainOfJson (chainToJson c) = Some c.
Proof.
  destruct c as [u la a d i]. unfold chainOfJson, chainToJson. cbn [clURI clLast clAuth clDomains clIdentity].
  match goal with |- context [jfield (str "AUTHORITATIVE") ?l] =>
    change (jfield (str "AUTHORITATIVE") l) with (Some (JBool a));
    change (jfield (str "DOMAINS") l) with (Some (jstrs d));
    change (jfield (str "IDENTITY") l) with (Some (JStr i));
    change (jfield (str "LAST") l) with (Some (JStr la));
    change (jfield (str "URI") l) with (Some (jstrs u)) end.
  rewrite !dec_arr_strs. reflexivity.
Qed.
Lemma dec_ptr_chain o : dec_ptr chainOfJson (Some (jopt chainToJson o)) = Some o.
Proof.
  destruct o as [c|]; [|reflexivity]. cbn [jopt].
  change (dec_ptr chainOfJson (Some (chainToJson c))) with (match chainOfJson (chainToJson c) with Some a => Some (Some a) | None => None end).
  rewrite chainOfJson_to. reflexivity.
Qed.
Definition uidWf (u : uidMsg) : Prop := uMsgCount u < 2 ^ 64 /\ uNotAfter u < 2 ^ 64 /\ uNotBefore u < 2 ^ 64.
Lemma uidOfJson_to u : uidWf u -> uidOfJson (uidToJson u) = Some u.
Proof.
  destruct u as [ver cnt na nb mix nym id sk pk esc le ru fs cs ch es us ss lk].
  unfold uidWf. cbn [uMsgCount uNotAfter uNotBefore]. intros (H1 & H2 & H3).
  unfold uidOfJson, uidToJson. cbn [dec_obj].
  match goal with |- context [jfield (str "UIDContent") ?l] =>
    change (jfield (str "UIDContent") l) with (Some (contentToJson (mkUid ver cnt na nb mix nym id sk pk esc le ru fs cs ch es us ss lk)));
    change (jfield (str "ESCROWSIGNATURE") l) with (Some (JStr es));
    change (jfield (str "USERSIGNATURE") l) with (Some (JStr us));
    change (jfield (str "SELFSIGNATURE") l) with (Some (JStr ss));
    change (jfield (str "LINKAUTHORITY") l) with (Some (JStr lk)) end.
  unfold contentToJson. cbn [dec_obj].
  cbn [uVersion uMsgCount uNotAfter uNotBefore uMix uNym uIdentity uSigKey uPubKeys uEscrow uLastEntry uRepoURIs uFwdSec uSuites uChain].
  match goal with |- context [jfield (str "PREFERENCES") ?l] =>
    change (jfield (str "PREFERENCES") l) with (Some (JObj [(str "CIPHERSUITES", jstrs cs); (str "FORWARDSEC", JStr fs)]));
    change (jfield (str "CHAINLINK") l) with (Some (jopt chainToJson ch));
    change (jfield (str "IDENTITY") l) with (Some (JStr id));
    change (jfield (str "LASTENTRY") l) with (Some (JStr le));
    change (jfield (str "MIXADDRESS") l) with (Some (JStr mix));
    change (jfield (str "MSGCOUNT") l) with (Some (JN cnt));
    change (jfield (str "NOTAFTER") l) with (Some (JN na));
    change (jfield (str "NOTBEFORE") l) with (Some (JN nb));
    change (jfield (str "NYMADDRESS") l) with (Some (JStr nym));
    change (jfield (str "PUBKEYS") l) with (Some (jkes pk));
    change (jfield (str "REPOURIS") l) with (Some (jstrs ru));
    change (jfield (str "SIGESCROW") l) with (Some (jopt keToJson esc));
    change (jfield (str "SIGKEY") l) with (Some (keToJson sk));
    change (jfield (str "VERSION") l) with (Some (JStr ver)) end.
  cbn [dec_obj].
  match goal with |- context [jfield (str "CIPHERSUITES") ?l] =>
    change (jfield (str "CIPHERSUITES") l) with (Some (jstrs cs));
    change (jfield (str "FORWARDSEC") l) with (Some (JStr fs)) end.
  rewrite !dec_str_JStr, !dec_uint_JN, !dec_arr_strs, dec_arr_kes, dec_ptr_ke, dec_ke_to, dec_ptr_chain by (assumption || lia).
  reflexivity.
Qed.
Definition headerWf (h : header) : Prop :=
  hMaxDelay h < 2 ^ 64 /\ hSessCount h < 2 ^ 64 /\ hMsgCount h < 2 ^ 64 /\ hStatus h < 2 ^ 8.
Lemma headerOfJson_to h : headerWf h -> headerOfJson (headerToJson h) = Some h.
Proof.
  destruct h as [a b c d e f g nx sn j k m n o p q r].
  unfold headerWf. cbn [hMaxDelay hSessCount hMsgCount hStatus]. intros (H1 & H2 & H3 & H4).
  unfold headerOfJson, headerToJson. cbn [dec_obj].
  cbn [hSuite hRecipPubHash hRecipTempHash hSender hSessPub hSenderPubHash hSenderPub hNext hSeen hNym hMaxDelay hSessCount hMsgCount hUID hKeychain hStatus hPadding].
  match goal with |- context [jfield (str "Ciphersuite") ?l] =>
    change (jfield (str "Ciphersuite") l) with (Some (JStr a));
    change (jfield (str "RecipientPubHash") l) with (Some (JStr b));
    change (jfield (str "RecipientTempHash") l) with (Some (JStr c));
    change (jfield (str "SenderIdentity") l) with (Some (JStr d));
    change (jfield (str "SenderSessionPub") l) with (Some (keToJson e));
    change (jfield (str "SenderIdentityPubHash") l) with (Some (JStr f));
    change (jfield (str "SenderIdentityPub") l) with (Some (keToJson g));
    change (jfield (str "NextSenderSessionPub") l) with (Some (jopt keToJson nx));
    change (jfield (str "NextRecipientSessionPubSeen") l) with (Some (jopt keToJson sn));
    change (jfield (str "NymAddress") l) with (Some (JStr j));
    change (jfield (str "MaxDelay") l) with (Some (JN k));
    change (jfield (str "SenderSessionCount") l) with (Some (JN m));
    change (jfield (str "SenderMessageCount") l) with (Some (JN n));
    change (jfield (str "SenderUID") l) with (Some (JStr o));
    change (jfield (str "SenderLastKeychainHash") l) with (Some (JStr p));
    change (jfield (str "Status") l) with (Some (JN q));
    change (jfield (str "Padding") l) with (Some (JStr r)) end.
  rewrite !dec_str_JStr, !dec_uint_JN, !dec_ptr_ke, !dec_ke_to by (assumption || lia).
  reflexivity.
Qed.
Lemma jwf_ke k : jwf (keToJson k).
Proof. unfold keToJson. constructor. repeat constructor. Qed.
Lemma jwf_opt {A} (f : A -> json) o : (forall a, jwf (f a)) -> jwf (jopt f o).
Proof. intros H. destruct o; [apply H|constructor]. Qed.
Lemma jwf_strs l : jwf (jstrs l).
Proof. destruct l as [|x l]; constructor. apply Forall_forall. intros v Hv. apply in_map_iff in Hv as (y & <- & _). constructor. Qed.
Lemma jwf_kes l : jwf (jkes l).
Proof. destruct l as [|x l]; constructor. apply Forall_forall. intros v Hv. apply in_map_iff in Hv as (y & <- & _). apply jwf_ke. Qed.
Lemma jwf_chain c : jwf (chainToJson c).
Proof. unfold chainToJson. constructor. repeat constructor; cbn [snd]; apply jwf_strs. Qed.
Ltac jw := cbn [snd]; first [apply jwf_JN | apply jwf_ke | apply jwf_strs | apply jwf_kes
  | apply jwf_opt; first [apply jwf_ke | apply jwf_chain] | constructor].
Lemma jwf_content u : jwf (contentToJson u).
Proof.
  unfold contentToJson. constructor.
  repeat (apply Forall_cons; [cbn [snd]; try solve [jw]|]); [|apply Forall_nil].
  constructor. repeat (apply Forall_cons; [solve [jw]|]). apply Forall_nil.
Qed.
Lemma jwf_uid u : jwf (uidToJson u).
Proof.
  unfold uidToJson. constructor.
  repeat (apply Forall_cons; [first [solve [jw] | apply jwf_content]|]). apply Forall_nil.
Qed.
Lemma jwf_header h : jwf (headerToJson h).
Proof.
  unfold headerToJson. constructor.
  repeat (apply Forall_cons; [solve [jw]|]). apply Forall_nil.
Qed.
Lemma newJSONUid_JSON u : uidWf u -> newJSONUid (uidJSON u) = Ok u.
Proof. intros H. unfold newJSONUid, uidJSON. rewrite jparse_print by apply jwf_uid. rewrite uidOfJson_to by exact H. reflexivity. Qed.

(* ---- lengths of the UID message and of the header ---- *)
Lemma lenN_JN n : lenN (jprint (JN n)) = lenN (decimal n).
Proof. reflexivity. Qed.
Lemma escs_JN n : escs (jprint (JN n)) = lenN (decimal n).
Proof. apply escs_of_plain, plain_decimal. Qed.
Lemma lenN_JStr s : lenN (jprint (JStr s)) = 2 + escs s.
Proof. apply lenN_jstr. Qed.
Lemma escs_JStr s : plain s -> escs (jprint (JStr s)) = 4 + lenN s.
Proof. apply escs_jstr. Qed.
Definition optLen (o : option keyEntry) : Prop := match o with None => True | Some k => keLen 10 k end.
Lemma lenN_opt o : optLen o -> lenN (jprint (jopt keToJson o)) = match o with None => 4 | Some _ => 247 end.
Proof. destruct o as [k|]; intros H; [apply ke_json_len in H; exact H|reflexivity]. Qed.
Lemma pmlist_len_cons k v p l : lenN (pmlist ((k, v) :: p :: l)) = 2 + escs k + 1 + lenN (jprint v) + 1 + lenN (pmlist (p :: l)).
Proof. rewrite pmlist_cons. lenN_simp. rewrite lenN_jstr. lia. Qed.
Lemma pmlist_len_one k v : lenN (pmlist [(k, v)]) = 2 + escs k + 1 + lenN (jprint v).
Proof. cbn [pmlist]. lenN_simp. rewrite lenN_jstr. lia. Qed.
Lemma pmlist_esc_cons k v p l : plain k -> escs (pmlist ((k, v) :: p :: l)) = 4 + lenN k + 1 + escs (jprint v) + 1 + escs (pmlist (p :: l)).
Proof. intros H. rewrite pmlist_cons, !escs_app, escs_jstr by exact H. change (escs [58]) with 1. change (escs [44]) with 1. lia. Qed.
Lemma pmlist_esc_one k v : plain k -> escs (pmlist [(k, v)]) = 4 + lenN k + 1 + escs (jprint v).
Proof. intros H. cbn [pmlist]. rewrite !escs_app, escs_jstr by exact H. change (escs [58]) with 1. lia. Qed.
Lemma lenN_obj l : lenN (jprint (JObj l)) = 2 + lenN (pmlist l).
Proof. rewrite jprint_obj. lenN_simp. change (lenN [123]) with 1. change (lenN [125]) with 1. lia. Qed.
Lemma escs_obj l : escs (jprint (JObj l)) = 2 + escs (pmlist l).
Proof. rewrite jprint_obj, !escs_app. change (escs [123]) with 1. change (escs [125]) with 1. lia. Qed.

(* the header without its variable parts *)
Lemma header_json_len h :
  hSuite h = DefaultCiphersuite -> lenN (hRecipPubHash h) = 88 -> plain (hRecipPubHash h) ->
  lenN (hRecipTempHash h) = 88 -> plain (hRecipTempHash h) -> keLen 10 (hSessPub h) ->
  lenN (hSenderPubHash h) = 88 -> plain (hSenderPubHash h) -> keLen 10 (hSenderPub h) ->
  optLen (hNext h) -> optLen (hSeen h) -> hMaxDelay h = 0 -> hStatus h < 10 ->
  lenN (hKeychain h) = 204 -> plain (hKeychain h) -> plain (hPadding h) ->
  lenN (jprint (headerToJson h)) =
    1359 + escs (hSender h) + (match hNext h with None => 4 | Some _ => 247 end) + (match hSeen h with None => 4 | Some _ => 247 end)
    + escs (hNym h) + lenN (decimal (hSessCount h)) + lenN (decimal (hMsgCount h)) + escs (hUID h) + lenN (hPadding h).
Proof.
  intros H1 H2 H3 H4 H5 H6 H7 H8 H9 H10 H11 H12 H13 H14 H15 H16.
  unfold headerToJson. rewrite lenN_obj. rewrite !pmlist_len_cons, pmlist_len_one.
  rewrite !lenN_JStr, !lenN_JN, !lenN_opt, (ke_json_len 10 _ H6), (ke_json_len 10 _ H9) by assumption.
  rewrite (escs_of_plain (hRecipPubHash h)), (escs_of_plain (hRecipTempHash h)), (escs_of_plain (hSenderPubHash h)),
    (escs_of_plain (hKeychain h)), (escs_of_plain (hPadding h)) by assumption.
  rewrite H1, H2, H4, H7, H14, H12.
  assert (E : lenN (decimal (hStatus h)) = 1) by (rewrite <- digitsCount_decimal by lia; unfold digitsCount; replace (hStatus h <? 10) with true by lia; reflexivity).
  rewrite E. change (lenN (decimal 0)) with 1.
  unfold DefaultCiphersuite. clen. lia.
Qed.

(* the padding fills up every variable field *)
Lemma padGen_len C l rand p : padGen C l rand = Ok p -> Z.of_N (lenN p) = l.
Proof. apply paddingGenerate_length. Qed.
Lemma padGen_wf C l rand p : wfb rand -> padGen C l rand = Ok p -> wfb p.
Proof.
  intros Hr. unfold padGen, paddingGenerate. destruct (Z.leb_spec l 32).
  - destruct (Z.ltb_spec l 0); [discriminate|].
    destruct (read_full (Z.to_N l) rand) as [[q t]|] eqn:R; [|discriminate]. intros E; injection E as <-.
    apply read_full_inv in R as [-> _]. apply wfb_app in Hr. tauto.
  - destruct (read_full 32 rand) as [[q t]|] eqn:R; [|discriminate].
    match goal with |- context [if ?b then _ else _] => destruct b end; [|discriminate].
    intros E; injection E as <-. apply wfb_takeN, ctr_wf.
Qed.
Lemma newHeader_inv C from to rth sp next seen nym sc mc kc rand st h :
  newHeader C from to rth sp next seen nym sc mc kc rand st = Ok h ->
  exists tk tks fk fks pad,
    lenN kc = 204 /\ uPubKeys to = tk :: tks /\ uPubKeys from = fk :: fks /\
    lenN (uIdentity from) <= 254 /\ lenN nym <= 1568 /\ lenN (uidJSON from) <= 2004 /\
    h = mkHeader DefaultCiphersuite (keHash tk) rth (uIdentity from) sp (keHash fk) fk next seen nym 0 sc mc (uidJSON from) kc st pad /\
    (sc < 2 ^ 64 -> mc < 2 ^ 64 ->
     lenN pad + lenN (uIdentity from) + lenN nym + lenN (uidJSON from) + lenN (decimal sc) + lenN (decimal mc)
     + (match next with None => 0 | Some _ => 243 end) + (match seen with None => 0 | Some _ => 243 end) = 5687) /\
    (wfb rand -> plain pad).
Proof.
  unfold newHeader, pubKey. destruct (N.eqb_spec (lenN kc) EntryBase64Len) as [Hk|]; [|discriminate]. cbn [negb].
  destruct (uPubKeys to) as [|tk tks]; [discriminate|]. destruct (uPubKeys from) as [|fk fks]; [discriminate|].
  unfold headerPadLen.
  destruct (N.ltb_spec IdMaxLen (lenN (uIdentity from))) as [|H1]; [discriminate|].
  destruct (N.ltb_spec MaxNymAddress (lenN nym)) as [|H2]; [discriminate|].
  destruct (N.ltb_spec MaxUIDMessage (lenN (uidJSON from))) as [|H3]; [discriminate|].
  cbn [rbind]. cbn zeta.
  match goal with |- context [padGen C (?l / 2 + _)%Z rand] => set (L := l) end.
  destruct (padGen C (L / 2 + L mod 2) rand) as [p| |] eqn:P; [|discriminate|discriminate].
  intros E. injection E as <-.
  exists tk, tks, fk, fks, (if (L mod 2 =? 1)%Z then takeN (lenN (hexenc p) - 1) (hexenc p) else hexenc p).
  unfold IdMaxLen, MaxNymAddress, MaxUIDMessage, EntryBase64Len in *.
  split; [exact Hk|]. split; [reflexivity|]. split; [reflexivity|]. split; [exact H1|]. split; [exact H2|]. split; [exact H3|].
  split; [reflexivity|]. split.
  - intros Hs Hm. apply padGen_len in P.
    assert (EL : L = (Z.of_N (5687 - lenN (uIdentity from) - lenN nym - lenN (uidJSON from)
        - (match next with None => 0 | Some _ => 243 end) - (match seen with None => 0 | Some _ => 243 end)) -
        Z.of_N (lenN (decimal sc)) - Z.of_N (lenN (decimal mc)))%Z).
    { subst L. unfold wiggleRoom. rewrite <- !digitsCount_decimal by assumption. change (digitsCount 0) with 1.
      destruct next, seen; lia. }
    assert (D : forall x, x < 2 ^ 64 -> lenN (decimal x) <= 20).
    { intros x Hx. rewrite <- digitsCount_decimal by exact Hx. unfold digitsCount.
      repeat match goal with |- context [if ?b then _ else _] => destruct b end; lia. }
    pose proof (D sc Hs). pose proof (D mc Hm).
    assert (lenN (if (L mod 2 =? 1)%Z then takeN (lenN (hexenc p) - 1) (hexenc p) else hexenc p) = Z.to_N L).
    { clear D. clearbody L. destruct (Z.eqb_spec (L mod 2) 1); rewrite ?lenN_takeN, lenN_hexenc; destruct next, seen; lia. }
    clearbody L. destruct next, seen; lia.
  - intros Hr. apply padGen_wf in P; [|exact Hr].
    destruct (L mod 2 =? 1)%Z; [apply plain_takeN|]; apply plain_hexenc, P.
Qed.

(* UID messages of the shape uid.Create produces for version 1.0, as far as lengths go;
   [esc]: with an escrow key *)
Definition uidShape (esc : bool) (u : uidMsg) : Prop :=
  plain (uVersion u) /\ plain (uMix u) /\ plain (uNym u) /\ plain (uIdentity u) /\ plain (uLastEntry u) /\ plain (uFwdSec u)
  /\ plain (uEscrowSig u) /\ plain (uUserSig u) /\ plain (uSelfSig u) /\ plain (uLinkAuth u)
  /\ keLen 7 (uSigKey u) /\ (exists k, uPubKeys u = [k] /\ keLen 10 k) /\ (exists d, uRepoURIs u = [d] /\ plain d)
  /\ (exists c, uSuites u = [c] /\ plain c) /\ uChain u = None
  /\ match uEscrow u with None => esc = false | Some k => esc = true /\ keLen 7 k end.
Lemma escs_sub_obj l n : escs (pmlist l) = lenN (pmlist l) + n -> escs (jprint (JObj l)) = lenN (jprint (JObj l)) + n.
Proof. rewrite escs_obj, lenN_obj. lia. Qed.
Lemma escs_strs_one s : plain s -> escs (jprint (jstrs [s])) = lenN (jprint (jstrs [s])) + 2.
Proof.
  intros H. cbn [jstrs map]. rewrite jprint_arr. cbn [pelist]. rewrite !escs_app, !lenN_app, escs_JStr, lenN_JStr by exact H.
  rewrite (escs_of_plain s) by exact H. change (escs [91]) with 1. change (escs [93]) with 1.
  change (lenN [91]) with 1. change (lenN [93]) with 1. lia.
Qed.
Lemma escs_kes_one k : keLen 10 k -> escs (jprint (jkes [k])) = lenN (jprint (jkes [k])) + 16.
Proof.
  intros H. cbn [jkes map]. rewrite jprint_arr. cbn [pelist]. rewrite !escs_app, !lenN_app, (ke_json_esc 10), (ke_json_len 10) by exact H.
  change (escs [91]) with 1. change (escs [93]) with 1. change (lenN [91]) with 1. change (lenN [93]) with 1. lia.
Qed.
Lemma escs_content esc u : uidShape esc u ->
  escs (jprint (contentToJson u)) = lenN (jprint (contentToJson u)) + (if esc then 96 else 80).
Proof.
  intros (P1 & P2 & P3 & P4 & P5 & P6 & P7 & P8 & P9 & P10 & K & (k & Ek & Kk) & (d & Ed & Pd) & (c & Ec & Pc) & Ech & Es).
  assert (EE : escs (jprint (jopt keToJson (uEscrow u))) = lenN (jprint (jopt keToJson (uEscrow u))) + (if esc then 16 else 0)).
  { destruct (uEscrow u) as [q|]; [destruct Es as [-> Kq]; cbn [jopt]; rewrite (ke_json_esc 7), (ke_json_len 7) by exact Kq; reflexivity|].
    rewrite Es. reflexivity. }
  unfold contentToJson. rewrite Ek, Ed, Ec, Ech. rewrite escs_obj, lenN_obj.
  rewrite !pmlist_esc_cons, pmlist_esc_one by reflexivity. rewrite !pmlist_len_cons, pmlist_len_one.
  rewrite EE, !escs_JStr, !lenN_JStr, !escs_JN, !lenN_JN, !escs_kes_one, !escs_strs_one, (ke_json_esc 7), (ke_json_len 7) by assumption.
  rewrite (escs_of_plain (uIdentity u)), (escs_of_plain (uLastEntry u)), (escs_of_plain (uMix u)), (escs_of_plain (uNym u)), (escs_of_plain (uVersion u)) by assumption.
  rewrite escs_obj, lenN_obj, pmlist_esc_cons, pmlist_esc_one, pmlist_len_cons, pmlist_len_one by reflexivity.
  rewrite escs_JStr, lenN_JStr, escs_strs_one by assumption. rewrite (escs_of_plain (uFwdSec u)) by assumption.
  change (jprint (jopt chainToJson None)) with (jprint JNull). change (escs (jprint JNull)) with 4. change (lenN (jprint JNull)) with 4.
  clen. destruct esc; lia.
Qed.
Lemma escs_uid esc u : uidShape esc u -> escs (uidJSON u) = lenN (uidJSON u) + (if esc then 114 else 98).
Proof.
  intros H. pose proof (escs_content esc u H) as EC.
  destruct H as (P1 & P2 & P3 & P4 & P5 & P6 & P7 & P8 & P9 & P10 & _).
  unfold uidJSON, uidToJson. rewrite escs_obj, lenN_obj.
  rewrite !pmlist_esc_cons, pmlist_esc_one by reflexivity. rewrite !pmlist_len_cons, pmlist_len_one.
  rewrite EC, !escs_JStr, !lenN_JStr by assumption.
  rewrite (escs_of_plain (uEscrowSig u)), (escs_of_plain (uLinkAuth u)), (escs_of_plain (uSelfSig u)), (escs_of_plain (uUserSig u)) by assumption.
  clen. destruct esc; lia.
Qed.
