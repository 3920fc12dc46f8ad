(* The way of a message (C131). *)
From Verif Require Import Base Base64Model Base64Proofs CodecModel CodecProofs JsonModel Maps IdentityModel IdentityProofs SqlModel SqlProofs MsgDBModel CryptoModel Asn1Model Asn1Proofs
  MixModel MixProofs MixClientModel CtrlModel PipeModel JourneyModel PropsMix PropsMixClient JourneyProofs.
From Verif Require ProtoProofs.
Delimit Scope string_scope with string.
Local Open Scope N_scope.

(* ------------------------------------------------------------------ *)
(* C131, the transport.  A mix whose keys and address can be used: *)
Record mixOk (M : MixCrypto) (lookup : bytes -> option bytes) (m : mixAddr) : Prop := {
  mo_key : exists k, pad32 (maPub m) = dhpub M k /\ lookup (dhpub M k) = Some k;
  mo_bytes : wfb (maPub m) /\ wfb (maAddress m) /\ wfb (maToken m);
  mo_addr : no_nl (maAddress m) /\ utf8ok (maAddress m) = true /\ lenN (maAddress m) <= 1000 }.
Definition rand32 (b : bytes) : Prop := lenN b = 32 /\ wfb b.
Definition dateOk (d : bytes) : Prop := wfb d /\ no_nl d /\ lenN d <= 1000.

Lemma getAccount_wf U my c db pk sv sc a b d : getAccount U my c db = Ok (pk, sv, sc, a, b, d) -> wfb pk.
Proof.
  unfold getAccount. intros H. destruct (pairIDs _ _ _ _) as [[m0 c0]| |]; try discriminate H. cbn [rbind] in H.
  destruct (tmin _ _) as [[i r]|]; [|discriminate H]. destruct (b64dec (aPriv r)) as [p|] eqn:P; [|discriminate H]. cbn [fromOpt rbind] in H.
  destruct (b64dec (aSecret r)) as [q|]; [|discriminate H]. cbn [fromOpt rbind] in H. assert (pk = array64 p) as -> by congruence.
  unfold array64. apply wfb_takeN, wfb_app. split; [eapply wfb_b64dec; eassumption|apply wfb_repeat; lia].
Qed.
Lemma create_reload mail mixto revoke cacert : utf8ok mixto = true -> lenN mail + lenN mixto + lenN revoke + lenN cacert < 2 ^ 28 ->
  reload (createOut mail mixto revoke 587 [] (Some cacert)) = createOut mail mixto revoke 587 [] (Some cacert).
Proof.
  intros U L. destruct (reload_cases (createOut mail mixto revoke 587 [] (Some cacert))) as [->|[E _]].
  - split; [unfold int64ok; cbn; lia|]. cbn [createOut moMsg moTo moFrom moRevoke moHost moCA moErr octs]. change (lenN (str "client@mute.one")) with 15. rewrite !(lenN_nil N). lia.
  - reflexivity.
  - exfalso. unfold derMarshal, moFields, createOut in E. cbn [moMsg moTo moFrom moRevoke moPort moHost moCA moErr moResend octs encFields encField] in E.
    change (forallb isPrintable (str "client@mute.one")) with false in E. change (utf8ok (str "client@mute.one")) with true in E. change (forallb isPrintable (str "nil")) with true in E.
    rewrite U in E. destruct (forallb isPrintable mixto); cbn [forallb] in E; discriminate E.
Qed.
Lemma mo_wf mail mixto revoke cacert : wfb mail -> wfb mixto -> wfb revoke -> wfb cacert -> wfb (moMarshal (createOut mail mixto revoke 587 [] (Some cacert))).
Proof.
  intros A B D E. unfold moMarshal. destruct (derMarshal _) as [d|] eqn:Q; [|constructor]. apply (derMarshal_wf _ _ Q). unfold moFields, createOut.
  cbn [moMsg moTo moFrom moRevoke moPort moHost moCA moErr moResend octs]. repeat constructor; cbn [dvWf]; try exact I; try assumption; try (apply wfbb_spec; vm_compute; reflexivity).
Qed.
Lemma fetch_mail from to date body : no_nl from -> no_nl to -> no_nl date -> wfb body -> lenN body <= 194283 -> fetchMessage (writeMail from to date body) = Ok body.
Proof.
  intros A B D W L. unfold fetchMessage. assert (Q : exists r, writeMail from to date body = str "From: " ++ r).
  { unfold writeMail, writeMailHeader. cbn [map concat]. rewrite <- !app_assoc. eexists. reflexivity. }
  pose proof (readMail_writeMail from to date body A B D W) as R. rewrite (proj2 (N.leb_le _ _) L) in R. destruct Q as [r Q]. 
  assert (Ln : lenN (writeMail from to date body) <? 7 = false).
  { apply N.ltb_ge. unfold writeMail, writeMailHeader. cbn [map concat]. rewrite !lenN_app. change (lenN (str "From: ")) with 6. change (lenN (str "To: ")) with 4. lia. }
  rewrite Ln, R. rewrite Q. change (str "ERROR:") with [69; 82; 82; 79; 82; 58]. rewrite takeN_app by reflexivity. reflexivity.
Qed.

Theorem C131_transport : forall U (M : MixCrypto) db my c privkey server sv secret aMin aMax aLast
    mixes expire single mn mx now0 rnd apriv anonce mixto nymaddress cacert minD maxD token raw now1 date revoke priv nonce lookup now2 epriv from date2,
  (* the receiver has an account on a server in the system domain, and a nym address for it *)
  getAccount U my c db = Ok (privkey, server, secret, aMin, aMax, aLast) -> server = sv ++ MuteSystemDomain -> wfb sv -> no_nl sv ->
  newNymAddress U M mixes secret expire single mn mx my (dropN 32 privkey) server now0 rnd apriv anonce = Ok (mixto, nymaddress) ->
  int64ok expire -> int32ok mn -> int32ok mx -> rand32 anonce -> Forall (mixOk M lookup) mixes ->
  (* the sender has an encrypted message for it, and a token *)
  wfb raw -> 4096 <= lenN raw -> lenN raw <= 65536 -> wfb token -> token <> [] -> token <> [0] -> lenN token + lenN nymaddress <= 60000 ->
  int32ok minD -> int32ok maxD -> rand32 revoke -> rand32 nonce -> dateOk date -> wfb cacert -> lenN cacert < 2 ^ 20 ->
  (* the address has not expired when the message is made and when the mix sends it on *)
  (now1 <= expire)%Z -> (now2 <= expire)%Z -> no_nl from -> dateOk date2 ->
  exists env mail mail2 out,
    protoCreate M cacert minD maxD (b64enc token) nymaddress (b64enc raw) now1 date revoke priv nonce = Ok env /\
    (forall e, protoDeliver env e = Ok (mixto, mail, deliver (createOut mail mixto revoke 587 [] (Some cacert)) e)) /\
    mixServer M lookup now2 epriv from date2 mail = Ok (mail2, hexenc (dropN 32 privkey) ++ [64] ++ server) /\
    fetchMessage mail2 = Ok out /\ wfb out /\ lenN out = lenN raw + 193 /\
    openEnvelope U M my c (b64enc out) db = Ok (Some raw).
Proof.
  intros U M db my c privkey server sv secret aMin aMax aLast mixes expire single mn mx now0 rnd apriv anonce mixto nymaddress cacert minD maxD token raw now1 date
    revoke priv nonce lookup now2 epriv from date2 GA -> Wsv Nsv NN Ex Mn Mx [La Wa] MO Wr Lr1 Lr2 Wt T1 T2 Lt I1 I2 [Lre Wre] [Lno Wno] [Wd [Nd Ld]] Wca Lca X1 X2 Nf [Wd2 [Nd2 Ld2]].
  pose proof (getAccount_wf _ _ _ _ _ _ _ _ _ _ GA) as Wpk. rewrite Forall_forall in MO.
  unfold newNymAddress in NN. destruct (need _ _) as [u| |]; try discriminate NN. cbn [rbind] in NN.
  destruct (mailboxAddress (dropN 32 privkey) (sv ++ MuteSystemDomain)) as [box| |] eqn:Mb; try discriminate NN. cbn [rbind] in NN.
  set (tpl := mkTpl secret 0 mixes expire single mn mx) in *.
  destruct (newAddress M tpl box (sha256 M my) now0 rnd apriv anonce) as [na| |] eqn:NA; try discriminate NN. cbn [rbind] in NN.
  destruct (parseAddress now0 na) as [a0| |] eqn:P0; try discriminate NN. cbn [rbind] in NN.
  assert (Emix : mixto = naMix a0) by congruence. assert (Enym : nymaddress = b64enc na) by congruence. clear NN.
  assert (Wpub : wfb (dropN 32 privkey)) by apply wfb_dropN, Wpk.
  assert (Ebox : box = hexenc (dropN 32 privkey) ++ [64] ++ sv).
  { unfold mailboxAddress in Mb. rewrite lenN_app in Mb. replace (lenN sv + lenN MuteSystemDomain <? lenN MuteSystemDomain) with false in Mb by lia.
    replace (lenN sv + lenN MuteSystemDomain - lenN MuteSystemDomain) with (lenN sv) in Mb by lia. rewrite takeN_app in Mb by reflexivity. congruence. }
  assert (Wbox : wfb box).
  { rewrite Ebox. apply wfb_app. split; [apply ProtoProofs.wfb_hexenc, Wpub|]. apply wfb_app. split; [repeat constructor; lia|exact Wsv]. }
  destruct (newAddress_wf M tpl box (sha256 M my) now0 rnd apriv anonce na NA) as (mix & pe & Im & Wna & Ea); auto.
  { intros m Hm. apply (mo_bytes _ _ _ (MO m Hm)). }
  { apply sha256_wf. }
  assert (Lna : lenN na <= lenN nymaddress) by (rewrite Enym, lenN_b64enc; lia).
  assert (PB : forall now, parseAddress now na = if (expire <? now)%Z then Err "nymaddr: expired" else Ok (mkNA (maAddress mix) expire single (maToken mix) (maPub mix) (dhpub M apriv) pe)).
  { intros now. apply (parse_built M tpl mix apriv pe na now); [exact Ex|lia|exact Ea]. }
  set (ad := mkNA (maAddress mix) expire single (maToken mix) (maPub mix) (dhpub M apriv) pe) in *.
  assert (A0 : a0 = ad) by (rewrite PB in P0; destruct (expire <? now0)%Z; [discriminate P0|congruence]). subst a0. change (naMix ad) with (maAddress mix) in Emix.
  assert (P1 : parseAddress now1 na = Ok ad) by (rewrite PB; replace (expire <? now1)%Z with false by lia; reflexivity).
  pose proof (mo_bytes _ _ _ (MO mix Im)) as (Wp & Wad & Wtk). pose proof (mo_addr _ _ _ (MO mix Im)) as (Nad & Uad & Lad).
  set (h := mkMH 0 minD maxD (Some token) [] None).
  set (env := mixEncrypt M (pad32 (naMixPub ad)) priv nonce (mhMarshal (mkMH MessageTypeRelay minD maxD (Some token) na (Some revoke)) ++ raw)).
  assert (NR : newRelay M h now1 na raw revoke priv nonce = Ok (env, mixto)).
  { rewrite Emix. exact (newRelay_mixto M h now1 na raw revoke priv nonce ad P1). }
  assert (Lh : lenN (mhMarshal (mkMH MessageTypeRelay minD maxD (Some token) na (Some revoke))) < 65280) by (apply relayHeader_len; auto; lia).
  assert (Wenv : wfb env).
  { unfold env, mixEncrypt. apply wfb_app. split; [apply pad32_wf, Wp|]. apply wfb_app. split; [apply dhpub_wf|]. apply wfb_app. split; [exact Wno|].
    apply gcmseal_wf, wfb_app. split; [apply mhMarshal_wf; assumption|exact Wr]. }
  assert (Lenv : lenN env <= 131000).
  { unfold env, mixEncrypt. rewrite !lenN_app, pad32_len, dhpub_len, gcmseal_len, lenN_app. lia. }
  destruct (end_to_end_full M tpl (dropN 32 privkey) sv box (sha256 M my) now0 rnd apriv anonce na h now1 now2 raw revoke priv nonce env mixto lookup epriv) as (r & out & R1 & R2 & R3 & R4 & R5 & hdr & sec & G & Lhd & Eout);
    auto; try exact Ex; try exact Mn; try exact Mx.
  { intros Q. apply T1. cbn [h mhToken] in Q. congruence. }
  { intros Q. apply T2. cbn [h mhToken] in Q. congruence. }
  { intros m Hm. apply (mo_key _ _ _ (MO m Hm)). }
  pose proof (header_wf M tpl box (sha256 M my) anonce epriv hdr sec Wa (sha256_wf M my) G) as Whd.
  assert (Wout : wfb out).
  { rewrite Eout. apply wfb_app. split; [apply wfb_be|]. apply wfb_app. split; [exact Whd|apply gcmseal_wf, Wr]. }
  assert (Lout : lenN out = lenN raw + 193).
  { rewrite Eout, !lenN_app, lenN_be, gcmseal_len, Lhd. lia. }
  set (mail := writeMail DefaultSender mixto date env). set (adr := hexenc (dropN 32 privkey) ++ [64] ++ sv ++ MuteSystemDomain) in *.
  assert (Nto : no_nl mixto) by (rewrite Emix; exact Nad).
  assert (Nadr : no_nl adr).
  { assert (NA2 : forall x y, no_nl x -> no_nl y -> no_nl (x ++ y)) by (intros x y X Y; unfold no_nl in *; rewrite forallb_app, X, Y; reflexivity).
    apply NA2; [|apply NA2; [reflexivity|apply NA2; [exact Nsv|reflexivity]]]. unfold no_nl. clear - Wpub. revert Wpub. generalize (dropN 32 privkey). intros l W. induction W as [|x l X W IH]; [reflexivity|].
    cbn [hexenc forallb]. rewrite IH. assert (H : forall y, is_nl (hexchar y) = false).
    { intros y. unfold is_nl, hexchar. destruct (N.ltb_spec y 10); apply orb_false_iff; split; apply N.eqb_neq; lia. }
    rewrite !H. reflexivity. }
  exists (b64enc (moMarshal (createOut mail mixto revoke 587 [] (Some cacert)))), mail, (writeMail from adr date2 out), out.
  split.
  { unfold protoCreate. rewrite Enym, !b64dec_enc by assumption. cbn [fromOpt rbind]. fold h. rewrite NR. reflexivity. }
  assert (Wmail : wfb mail) by (apply writeMail_wf; [apply wfbb_spec; vm_compute; reflexivity|rewrite Emix; exact Wad|exact Wd]).
  split.
  { intros e. unfold protoDeliver. rewrite b64dec_enc by (apply mo_wf; try assumption; rewrite Emix; exact Wad). cbn [fromOpt rbind]. cbv zeta.
    change (moUnmarshal (moMarshal (createOut mail mixto revoke 587 [] (Some cacert)))) with (reload (createOut mail mixto revoke 587 [] (Some cacert))).
    rewrite create_reload; [reflexivity|rewrite Emix; exact Uad|]. pose proof (writeMail_len DefaultSender mixto date env) as Lm. fold mail in Lm. change (lenN DefaultSender) with 15 in Lm.
    assert (lenN mixto <= 1000) by (rewrite Emix; exact Lad). lia. }
  split.
  { unfold mixServer. unfold mail. rewrite readMail_writeMail; auto; [|reflexivity]. replace (lenN env <=? 194283) with true by lia. cbn [rbind]. rewrite R1. cbn [rbind]. rewrite R4. cbn [rbind]. reflexivity. }
  split; [apply fetch_mail; auto; lia|]. split; [exact Wout|]. split; [exact Lout|].
  unfold openEnvelope. rewrite b64dec_enc by exact Wout. cbn [fromOpt rbind]. rewrite GA. cbn [rbind]. rewrite Mb. cbn [rbind]. change (tpSecret tpl) with secret in R5. rewrite R5. cbn [rbind].
  rewrite pad32_id by apply sha256_len. rewrite beq_refl. reflexivity.
Qed.

(* ------------------------------------------------------------------ *)
(* a user with an account, a mix, and what happens to a message of 4096 bytes *)
Definition jLookup (M : MixCrypto) (p : bytes) : option bytes := if beq p (dhpub M (zk 5)) then Some (zk 5) else None.
Definition jMix (M : MixCrypto) : mixAddr := mkMA (dhpub M (zk 5)) 2000 (str "mix@mute.one") [8; 8].
Lemma jMix_ok M : mixOk M (jLookup M) (jMix M).
Proof.
  constructor.
  - exists (zk 5). cbn [jMix maPub]. split; [apply pad32_id, dhpub_len|]. unfold jLookup. rewrite beq_refl. reflexivity.
  - split; [apply dhpub_wf|]. split; apply wfbb_spec; vm_compute; reflexivity.
  - split; [vm_compute; reflexivity|]. split; [vm_compute; reflexivity|]. vm_compute. discriminate.
Qed.
Definition jMy : bytes := str "ann@mute.berlin".
Definition jServer : bytes := str "accounts." ++ MuteSystemDomain.
Definition jOps : list dop := [DAddNym jMy jMy (str "Ann"); DAddAccount jMy [] (repeat 7 64) jServer (repeat 9 64) 1 2].
Definition jDB : msgdb := drun goUnicode jOps emptyDB.
Definition jNym (M : MixCrypto) : res (bytes * bytes) :=
  newNymAddress goUnicode M [jMix M] (repeat 9 64) 1500 false 1 2 jMy (repeat 7 32) jServer 1000 3 (zk 6) (zk 7).
Lemma jAccount : getAccount goUnicode jMy [] jDB = Ok (repeat 7 64, jServer, repeat 9 64, 1%Z, 2%Z, 0%Z).
Proof. vm_compute. reflexivity. Qed.
Example C131_transport_case : exists nymaddress, jNym toyMix = Ok (str "mix@mute.one", nymaddress) /\ lenN nymaddress <= 50000.
Proof. eexists. split; [vm_compute; reflexivity|]. vm_compute. discriminate. Qed.
Definition jRun : res (bytes * bytes * bytes * bool) :=
  do (mixto, nym) <- jNym toyMix;
  do env <- protoCreate toyMix [] 1 2 (b64enc [1; 2]) nym (b64enc exMsg) 1100 (str "today") (zk 3) (zk 8) (zk 9);
  do (to, mail, _) <- protoDeliver env (mkEnv true None true (fun _ => true) None None None None None None None);
  do (mail2, to2) <- mixServer toyMix (jLookup toyMix) 1200 (zk 10) (str "mix@mute.one") (str "today") mail;
  do out <- fetchMessage mail2;
  do r <- openEnvelope goUnicode toyMix jMy [] (b64enc out) jDB;
  Ok (mixto, to, dropN 56 to2, match r with Some m => beq m exMsg | None => false end).
Example C131_transport_run : jRun = Ok (str "mix@mute.one", str "mix@mute.one", str "07070707@accounts.mute.one", true).
Proof. vm_compute. reflexivity. Qed.

Print Assumptions C131_transport.
