(* The invariant of a conversation and the effect of the store operations on it.  The ghost state records who made
   which key, which sessions exist with which root keys, and which message numbers were used. *)
From Verif Require Import Base Base64Model Base64Proofs CodecModel CodecProofs JsonModel JsonProofs Maps CryptoModel StoreModel KeysModel KeysProofs MsgFormatModel MsgFormatProofs HeaderModel HeaderProofs ProtoModel ProtoProofs ProtoFirst ConvModel ConvSteps.
Local Open Scope N_scope.

Lemma someInj {A} (a b : A) : Some a = Some b -> a = b.
Proof. congruence. Qed.
Lemma beqP a b : reflect (a = b) (beq a b).
Proof. destruct (beq a b) eqn:E; constructor; [now apply beq_spec|]. intros ->. rewrite beq_refl in E. discriminate. Qed.
Lemma b64enc_inj a b : wfb a -> wfb b -> b64enc a = b64enc b -> a = b.
Proof. intros A B E. pose proof (b64dec_enc a A) as D. rewrite E, (b64dec_enc b B) in D. injection D as D. auto. Qed.
Lemma app_inj_len {A} (a b c d : list A) : length a = length c -> a ++ b = c ++ d -> a = c /\ b = d.
Proof.
  revert c. induction a as [|x a IH]; intros [|y c] L E; cbn [length app] in *; try lia; [auto|].
  injection E as -> E. destruct (IH c ltac:(lia) E) as [-> ->]. auto.
Qed.
Lemma app_inj_lenN {A} (a b c d : list A) : lenN a = lenN c -> a ++ b = c ++ d -> a = c /\ b = d.
Proof. unfold lenN. intros L. apply app_inj_len. lia. Qed.
Lemma hashText_len C p : lenN (hashText C p) = 88.
Proof. unfold hashText. rewrite lenN_b64enc, sha512_len. reflexivity. Qed.
Lemma NoDup_map_inj {A B} (f : A -> B) l a b : NoDup (map f l) -> In a l -> In b l -> f a = f b -> a = b.
Proof.
  induction l as [|x l IH]; [intros _ []|]. cbn [map]. intros N Ia Ib E. inversion N as [|? ? N1 N2]; subst.
  destruct Ia as [->|Ia], Ib as [->|Ib]; auto.
  - exfalso. apply N1. rewrite E. now apply in_map.
  - exfalso. apply N1. rewrite <- E. now apply in_map.
Qed.

Inductive tag := TStat (p : bool) | TKI (p : bool) | TSess (p : bool) | THdr.
Definition msgId := (bytes * bytes * N)%type.
Record ghost := mkG {
  gT : bytes -> option tag;
  gG : bytes -> bytes -> option (bytes * bool);   (* root key and creator by the key of party true and the key of party false *)
  gSess : bool -> list (bytes * bytes);            (* sessions of a party: own key, other key *)
  gSent : bool -> list msgId;
  gDel : bool -> list msgId }.
Definition gp (g : ghost) (p : bool) (own peer : bytes) : option (bytes * bool) := if p then gG g own peer else gG g peer own.
Lemma gp_negb g p a b : gp g (negb p) a b = gp g p b a.
Proof. destruct p; reflexivity. Qed.

Definition gTag (k : bytes) (t : tag) (g : ghost) : ghost :=
  mkG (fun x => if beq x k then Some t else gT g x) (gG g) (gSess g) (gSent g) (gDel g).
Definition gNew (p : bool) (x y : bytes) (v : bytes * bool) (g : ghost) : ghost :=
  mkG (gT g) (fun a b => if beq a (if p then x else y) && beq b (if p then y else x) then Some v else gG g a b)
      (upd (gSess g) p ((x, y) :: gSess g p)) (gSent g) (gDel g).
Definition gSend (p : bool) (i : msgId) (g : ghost) : ghost :=
  mkG (gT g) (gG g) (gSess g) (upd (gSent g) p (i :: gSent g p)) (gDel g).
Definition gDeliver (p : bool) (i : msgId) (g : ghost) : ghost :=
  mkG (gT g) (gG g) (gSess g) (gSent g) (upd (gDel g) p (i :: gDel g p)).
Lemma upd_same {A} (f : bool -> A) p x : upd f p x p = x.
Proof. unfold upd. now rewrite Bool.eqb_reflx. Qed.
Lemma upd_other {A} (f : bool -> A) p x : upd f p x (negb p) = f (negb p).
Proof. unfold upd. destruct p; reflexivity. Qed.
Lemma upd_other' {A} (f : bool -> A) p x : upd f (negb p) x p = f p.
Proof. unfold upd. destruct p; reflexivity. Qed.
Lemma gp_new p x y v g : gp (gNew p x y v g) p x y = Some v.
Proof. unfold gp, gNew. cbn [gG]. destruct p; rewrite !beq_refl; reflexivity. Qed.
Lemma gp_new_mono p x y v g q a b u : gp g p x y = None \/ gp g p x y = Some v -> gp g q a b = Some u -> gp (gNew p x y v g) q a b = Some u.
Proof.
  assert (G : forall s t s' t', gG g t t' = None \/ gG g t t' = Some v -> gG g s s' = Some u -> (if beq s t && beq s' t' then Some v else gG g s s') = Some u).
  { intros s t s' t' H E. destruct (beqP s t) as [->|]; cbn [andb]; [|exact E]. destruct (beqP s' t') as [->|]; [|exact E].
    destruct H as [H|H]; rewrite H in E; [discriminate|exact E]. }
  unfold gp, gNew. cbn [gG]. intros H E. destruct p, q; apply G; assumption.
Qed.

Record ext (g g' : ghost) : Prop := {
  x_T : forall k t, gT g k = Some t -> gT g' k = Some t;
  x_G : forall p a b v, gp g p a b = Some v -> gp g' p a b = Some v;
  x_sess : forall p, incl (gSess g p) (gSess g' p);
  x_sent : forall p, incl (gSent g p) (gSent g' p);
  x_del : forall p, incl (gDel g p) (gDel g' p) }.
Record keep (q : bool) (g g' : ghost) : Prop := {
  kp_sess : gSess g' q = gSess g q;
  kp_sent : gSent g' q = gSent g q;
  kp_T : forall k, gT g' k = Some (TSess q) -> gT g k = Some (TSess q) }.
Lemma ext_refl g : ext g g.
Proof. constructor; auto; intros p x Hx; exact Hx. Qed.
Lemma ext_trans a b c : ext a b -> ext b c -> ext a c.
Proof. intros [A1 A2 A3 A4 A5] [B1 B2 B3 B4 B5]. constructor; intros; auto; eapply incl_tran; eauto. Qed.
Lemma keep_refl q g : keep q g g.
Proof. constructor; auto. Qed.
Lemma keep_trans q a b c : keep q a b -> keep q b c -> keep q a c.
Proof. intros [A1 A2 A3] [B1 B2 B3]. constructor; [congruence|congruence|auto]. Qed.
Lemma ext_tag k t g : gT g k = None -> ext g (gTag k t g).
Proof.
  intros H. constructor; try (intros p x Hx; exact Hx); [|intros p a b v E; exact E].
  intros k' t' E. cbn [gTag gT]. destruct (beqP k' k) as [->|]; [congruence|exact E].
Qed.
Lemma keep_tag q k t g : t <> TSess q -> keep q g (gTag k t g).
Proof. intros H. constructor; try reflexivity. cbn [gTag gT]. intros k'. destruct (beqP k' k); [congruence|auto]. Qed.
Lemma ext_new p x y v g : gp g p x y = None \/ gp g p x y = Some v -> ext g (gNew p x y v g).
Proof.
  intros H. constructor; try (intros q z Hz; exact Hz); [intros q a b u E; now apply gp_new_mono|].
  intros q z Hz. cbn [gNew gSess]. destruct (Bool.bool_dec q p) as [->|N]; [rewrite upd_same; right; exact Hz|].
  unfold upd. destruct (Bool.eqb p q) eqn:E; [|exact Hz]. apply Bool.eqb_prop in E. congruence.
Qed.
Lemma keep_new p x y v g : keep (negb p) g (gNew p x y v g).
Proof. constructor; try reflexivity; [|auto]. cbn [gNew gSess]. apply upd_other. Qed.
Lemma upd_incl {A} (f : bool -> list A) p x q : incl (f q) (upd f p (x :: f p) q).
Proof.
  intros z Hz. destruct (Bool.bool_dec q p) as [->|N]; [rewrite upd_same; right; exact Hz|].
  unfold upd. destruct (Bool.eqb p q) eqn:E; [|exact Hz]. apply Bool.eqb_prop in E. congruence.
Qed.
Lemma ext_send p i g : ext g (gSend p i g).
Proof. constructor; try (intros q z Hz; exact Hz); auto. intros q. apply upd_incl. Qed.
Lemma ext_deliver p i g : ext g (gDeliver p i g).
Proof. constructor; try (intros q z Hz; exact Hz); auto. intros q. apply upd_incl. Qed.
Lemma keep_send p i g : keep (negb p) g (gSend p i g).
Proof. constructor; try reflexivity; [|auto]. cbn [gSend gSent]. apply upd_other. Qed.
Lemma keep_deliver q p i g : keep q g (gDeliver p i g).
Proof. constructor; auto. Qed.

Section Inv.
Variable C : Crypto.
Variable P : bool -> party.
Definition sec (p : bool) : bytes := pSec (P p).
Definition SK (p : bool) (x y : bytes) : bytes := skOf C (sec p) (sec (negb p)) x y.
Definition FX : bytes := identityFix C (pName (P true)) (pName (P false)).
Lemma FX_eq p : identityFix C (pName (P p)) (pName (P (negb p))) = FX.
Proof. destruct p; [reflexivity|]. cbn [negb]. unfold FX. apply identityFix_sym. Qed.
Lemma FX_eq' p : identityFix C (pName (P (negb p))) (pName (P p)) = FX.
Proof. rewrite identityFix_sym. apply FX_eq. Qed.
Definition rootN (p : bool) (x y : bytes) (prev : option bytes) : bytes := rootOf C (sec p) x (sec (negb p)) y prev.
Lemma rootN_len p x y prev : lenN (rootN p x y prev) = 32. Proof. apply deriveRootKey_len. Qed.
Lemma rootN_wf p x y prev : wfb (rootN p x y prev). Proof. apply deriveRootKey_wf. Qed.

Definition ownT (g : ghost) (p : bool) (k : bytes) : Prop := gT g k = Some (TKI p) \/ gT g k = Some (TSess p).
Definition kiCond (g : ghost) (p : bool) (x y : bytes) : Prop := In y (pKIs (P (negb p))) /\ gp g p x y = Some (rootN p x y None, p).
Record tagsOk (used : list bytes) (g : ghost) : Prop := {
  t_in : forall k t, gT g k = Some t -> In k used;
  t_stat : forall p, gT g (sec p) = Some (TStat p);
  t_ki : forall p k, In k (pKIs (P p)) <-> gT g k = Some (TKI p);
  t_G : forall p a b v, gp g p a b = Some v -> gT g a <> None }.
Record base (p : bool) (st : store) (g : ghost) : Prop := {
  b_sess : forall x y, In (x, y) (gSess g p) -> exists s root cr n,
    mget (SK p x y) (sessions st) = Some s /\ gp g p x y = Some (root, cr) /\ lenN root = 32 /\ wfb root /\
    sessOk C root (dhpub C x) (dhpub C y) FX (b64enc (sha512 C root)) n s /\ (1 <= n)%nat /\
    (forall i, (i < n)%nat -> nth i (sSend s) [] = [] -> In (x, y, N.of_nat i) (gSent g p)) /\
    (forall i, (i < n)%nat -> nth i (sRecv s) [] = [] -> In (y, x, N.of_nat i) (gDel g (negb p)));
  b_only : forall sk s, mget sk (sessions st) = Some s -> exists x y, In (x, y) (gSess g p) /\ sk = SK p x y;
  b_tags : forall x y, In (x, y) (gSess g p) -> ownT g p x /\ ownT g (negb p) y;
  b_skeys : forall k, gT g k = Some (TSess p) -> exists e, mget (hashText C (dhpub C k)) (skeys st) = Some e /\
    skJson e = keJSON (initDHKey C k) /\ (skPriv e = [] \/ exists q, skPriv e = b64enc q /\ wfb q /\ lenN q = 32);
  b_priv : forall kb, In kb (pKIs (P p)) -> mget (hashText C (dhpub C kb)) (privKEs st) = Some (initDHKey C kb, kb);
  b_priv_only : forall h v, mget h (privKEs st) = Some v -> exists kb, In kb (pKIs (P p)) /\ h = hashText C (dhpub C kb);
  b_pub : forall k nym, mget (pName (P (negb p))) (pubKEs st) = Some (k, nym) -> exists kb, In kb (pKIs (P (negb p))) /\ k = initDHKey C kb;
  b_sent : forall x y i, In (x, y, i) (gSent g p) -> In (x, y) (gSess g p) }.
(* the part of the session state's invariant that is about the ghost state only *)
Record stG (p : bool) (g : ghost) (ss : state) (x y : bytes) (on os : option bytes) : Prop := {
  k_send : stSenderPub ss = initDHKey C x;
  k_temp : stRecipTemp ss = initDHKey C y;
  k_next : stNextSender ss = option_map (initDHKey C) on;
  k_seen : stNextSeen ss = option_map (initDHKey C) os;
  k_sc : stSessCount ss < 2 ^ 64;
  k_mc : stMsgCount ss < 2 ^ 64;
  k_cur : In (x, y) (gSess g p);
  k_peer : In (y, x) (gSess g (negb p)) \/ kiCond g p x y;
  k_sent : forall i, In (x, y, i) (gSent g p) -> i < stMsgCount ss;
  k_nextT : forall n, on = Some n -> gT g n = Some (TSess p) /\ n <> x /\ (forall z, In (n, z) (gSess g p) -> os = Some z) /\
              (forall z i, ~ In (n, z, i) (gSent g p));
  k_seenT : forall s, os = Some s -> exists n root cr, on = Some n /\ In (n, s) (gSess g p) /\ gp g p x y = Some (root, cr) /\
              gp g p n s = Some (rootN p n s (Some (sha512 C root)), p) }.
(* ... and about the store *)
Record stS (p : bool) (st : store) (cnt : N) (x y : bytes) (on : option bytes) : Prop := {
  s_count : forall s, mget (SK p x y) (sessions st) = Some s -> cnt <= lenN (sSend s);
  s_next : forall n, on = Some n -> exists e, mget (hashText C (dhpub C n)) (skeys st) = Some e /\ skJson e = keJSON (initDHKey C n) /\
             skPriv e = b64enc n /\ wfb n /\ lenN n = 32 }.
Definition stInv (p : bool) (st : store) (g : ghost) : Prop :=
  match mget (stateKey C P p) (states st) with
  | None => gSess g p = []
  | Some ss => exists x y on os, stG p g ss x y on os /\ stS p st (stMsgCount ss) x y on
  end.

(* ---- other party, growing ghost state ---- *)
Lemma ownT_ext g g' p k : ext g g' -> ownT g p k -> ownT g' p k.
Proof. intros E [H|H]; [left|right]; now apply (x_T _ _ E). Qed.
Lemma kiCond_ext g g' p x y : ext g g' -> kiCond g p x y -> kiCond g' p x y.
Proof. intros E [A B]. split; [exact A|]. now apply (x_G _ _ E). Qed.
Lemma base_keep p st g g' : ext g g' -> keep p g g' -> base p st g -> base p st g'.
Proof.
  intros E K [B1 B2 B3 B4 B5 B6 B7 B8]. destruct K as [K1 K2 K3]. constructor; try assumption; rewrite ?K1, ?K2; try assumption.
  - intros x y H. destruct (B1 x y H) as (s & root & cr & n & A1 & A2 & A3 & A4 & A5 & A6 & A7 & A8).
    exists s, root, cr, n. split; [exact A1|]. split; [now apply (x_G _ _ E)|]. repeat (split; [assumption|]).
    intros i Hi Hn. apply (x_del _ _ E). now apply A8.
  - intros x y H. destruct (B3 x y H). split; eapply ownT_ext; eassumption.
  - auto.
Qed.
Lemma stG_keep p g g' ss x y on os : ext g g' -> keep p g g' -> stG p g ss x y on os -> stG p g' ss x y on os.
Proof.
  intros E [K1 K2 K3] [S1 S2 S3 S4 S5 S6 S7 S8 S9 S10 S11]. constructor; try assumption; rewrite ?K1, ?K2; try assumption.
  - destruct S8 as [S8|S8]; [left; now apply (x_sess _ _ E)|right; eapply kiCond_ext; eassumption].
  - intros n Hn. destruct (S10 n Hn) as (A1 & A2 & A3 & A4). split; [now apply (x_T _ _ E)|auto].
  - intros s Hs. destruct (S11 s Hs) as (n & root & cr & A1 & A2 & A3 & A4). exists n, root, cr. repeat split; auto; now apply (x_G _ _ E).
Qed.
Lemma stInv_keep p st g g' : ext g g' -> keep p g g' -> stInv p st g -> stInv p st g'.
Proof.
  intros E K. unfold stInv. destruct (mget _ _) as [ss|]; [|now rewrite (kp_sess _ _ _ K)].
  intros (x & y & on & os & G & S). exists x, y, on, os. split; [eapply stG_keep; eassumption|exact S].
Qed.

(* ---- keys and hashes ---- *)
Variable used : list bytes.
Hypothesis KU : NoDup (map (dhpub C) used).
Hypothesis HC : noColl C P used.
Lemma pub_inj a b : In a used -> In b used -> dhpub C a = dhpub C b -> a = b.
Proof. intros. eapply NoDup_map_inj; eassumption. Qed.
Lemma hash_inj a b : In a used -> In b used -> hashText C (dhpub C a) = hashText C (dhpub C b) -> a = b.
Proof.
  intros A B E. apply pub_inj; try assumption. apply HC; [left; exists a; auto|left; exists b; auto|].
  eapply b64enc_inj; [apply sha512_wf..|exact E].
Qed.
Lemma SK_inj p a b c d : In a used -> In b used -> In c used -> In d used -> SK p a b = SK p c d -> a = c /\ b = d.
Proof.
  intros A B D E F. unfold SK, skOf, sessKeyOf, calcKey in F. apply b64enc_inj in F; try apply sha512_wf.
  apply HC in F.
  2:{ right. exists p, a, b. auto. }
  2:{ right. exists p, c, d. auto. }
  apply app_inj_lenN in F as [_ F]; [|reflexivity]. apply app_inj_lenN in F as [_ F]; [|reflexivity].
  apply app_inj_lenN in F as [F1 F2]; [|rewrite !hashText_len; reflexivity].
  split; apply hash_inj; assumption.
Qed.
Lemma ownT_used g p k : tagsOk used g -> ownT g p k -> In k used.
Proof. intros T [H|H]; eapply t_in; eassumption. Qed.
Lemma hash_ne a b : In a used -> In b used -> a <> b -> hashText C (dhpub C a) <> hashText C (dhpub C b).
Proof. intros A B N E. apply N. now apply hash_inj. Qed.
Lemma sess_unknown p st g x y : base p st g -> tagsOk used g -> In x used -> In y used -> ~ In (x, y) (gSess g p) -> mget (SK p x y) (sessions st) = None.
Proof.
  intros B T X Y N. destruct (mget (SK p x y) (sessions st)) as [s|] eqn:E; [|reflexivity]. exfalso.
  destruct (b_only _ _ _ B _ _ E) as (x' & y' & I1 & I2). destruct (b_tags _ _ _ B _ _ I1) as [T1 T2].
  apply SK_inj in I2; try assumption; try (eapply ownT_used; eassumption). destruct I2 as [-> ->]. contradiction.
Qed.

(* ---- store operations ---- *)
Lemma base_state p st g k ss : base p st g -> base p (apply_op (OSetState k ss) st) g.
Proof. intros [B1 B2 B3 B4 B5 B6 B7 B8]. constructor; assumption. Qed.
Lemma stS_state p st k ss c x y on : stS p st c x y on -> stS p (apply_op (OSetState k ss) st) c x y on.
Proof. intros [S1 S2]. constructor; assumption. Qed.
Lemma base_output p st g b : base p st g -> base p (apply_op (OOutput b) st) g.
Proof. auto. Qed.
Lemma tags_add g z t : tagsOk used g -> In z used -> gT g z = None -> (forall p, t <> TStat p) -> (forall p, t <> TKI p) -> tagsOk used (gTag z t g).
Proof.
  intros [T1 T2 T3 T4] Z N H1 H2. constructor; cbn [gTag gT].
  - intros k t'. destruct (beqP k z) as [->|]; [auto|apply T1].
  - intros p. destruct (beqP (sec p) z) as [E|]; [rewrite <- E, T2 in N; discriminate|apply T2].
  - intros p k. destruct (beqP k z) as [->|]; [|apply T3]. rewrite T3, N. split; [discriminate|]. intros E. injection E as E. exfalso. exact (H2 p E).
  - intros p a b v E. destruct (beqP a z); [discriminate|]. exact (T4 p a b v E).
Qed.
Lemma base_addKey p st g z cl : base p st g -> tagsOk used g -> In z used -> gT g z = None -> lenN z = 32 -> wfb z ->
  base p (apply_op (addKey C z cl) st) (gTag z (TSess p) g).
Proof.
  intros B T Z N L W. pose proof (ext_tag z (TSess p) g N) as E. destruct B as [B1 B2 B3 B4 B5 B6 B7 B8]. constructor; try assumption.
  - intros x y H. destruct (B3 x y H). split; eapply ownT_ext; eassumption.
  - intros k Hk. cbn [gTag gT] in Hk. unfold addKey. cbn [apply_op skeys]. rewrite keHash_init. destruct (beqP k z) as [Ez|Ne].
    + rewrite Ez. eexists. split; [apply mget_mset_same|]. cbn [skJson skPriv]. split; [reflexivity|]. right. exists z. auto.
    + rewrite mget_mset_other; [auto|]. apply hash_ne; auto. eapply t_in; eassumption.
Qed.
Lemma addKey_get st z cl : mget (hashText C (dhpub C z)) (skeys (apply_op (addKey C z cl) st)) = Some (mkSKey (keJSON (initDHKey C z)) (b64enc z) cl).
Proof. unfold addKey. cbn [apply_op skeys]. rewrite keHash_init. apply mget_mset_same. Qed.
Lemma stS_addKey p st z cl c x y on : stS p st c x y on -> In z used -> (forall n, on = Some n -> In n used /\ n <> z) ->
  stS p (apply_op (addKey C z cl) st) c x y on.
Proof.
  intros [S1 S2] Z H. constructor; [exact S1|]. intros n Hn. destruct (H n Hn) as [Hu Ne]. unfold addKey. cbn [apply_op skeys]. rewrite keHash_init.
  rewrite mget_mset_other by (apply hash_ne; assumption). auto.
Qed.
Lemma base_delPriv p st g h : base p st g -> base p (apply_op (ODelPriv h) st) g.
Proof.
  intros [B1 B2 B3 B4 B5 B6 B7 B8]. cbn [apply_op]. destruct (mget h (skeys st)) as [e0|] eqn:E; constructor; try assumption.
  intros k Hk. cbn [skeys]. destruct (B4 k Hk) as (e & A1 & A2 & A3). destruct (beqP (hashText C (dhpub C k)) h) as [Eh|Ne].
  - rewrite Eh, mget_mset_same. eexists. split; [reflexivity|]. cbn [skJson skPriv]. rewrite Eh, E in A1. injection A1 as ->. auto.
  - rewrite mget_mset_other by exact Ne. exists e. auto.
Qed.
Lemma stS_delPriv p st h c x y on : stS p st c x y on -> (forall n, on = Some n -> hashText C (dhpub C n) <> h) -> stS p (apply_op (ODelPriv h) st) c x y on.
Proof.
  intros [S1 S2] H. cbn [apply_op]. destruct (mget h (skeys st)) as [e0|] eqn:E; constructor; try assumption.
  intros n Hn. cbn [skeys]. rewrite mget_mset_other by (apply H; exact Hn). auto.
Qed.
Lemma tags_new p x y v g : tagsOk used g -> ownT g p x -> ownT g (negb p) y -> tagsOk used (gNew p x y v g).
Proof.
  intros [T1 T2 T3 T4] X Y. constructor; try assumption. intros q a b u E. cbn [gNew gT].
  assert (NX : gT g x <> None) by (destruct X as [X|X]; rewrite X; discriminate).
  assert (NY : gT g y <> None) by (destruct Y as [Y|Y]; rewrite Y; discriminate).
  specialize (T4 q a b). unfold gp, gNew in *. cbn [gG] in E. destruct p, q; cbn [negb] in *;
  match type of E with (if beq ?s ?t && beq ?s' ?t' then _ else _) = _ => destruct (beqP s t) as [E1|]; cbn [andb] in E; [|exact (T4 _ E)]; destruct (beqP s' t') as [E2|]; [|exact (T4 _ E)] end;
  congruence.
Qed.
Lemma base_newSess p st g x y root cr nk : base p st g -> tagsOk used g -> ownT g p x -> ownT g (negb p) y ->
  ~ In (x, y) (gSess g p) -> gp g p x y = None \/ gp g p x y = Some (root, cr) -> lenN root = 32 -> wfb root -> 1 <= nk ->
  (forall i, ~ In (x, y, i) (gSent g p)) ->
  base p (apply_op (newSess C (sec p) (sec (negb p)) x y FX root nk) st) (gNew p x y (root, cr) g).
Proof.
  intros B T X Y N G L W Hn NS. pose proof (ext_new p x y (root, cr) g G) as E.
  assert (UX : In x used) by (eapply ownT_used; eassumption). assert (UY : In y used) by (eapply ownT_used; eassumption).
  pose proof (sess_unknown p st g x y B T UX UY N) as U.
  assert (GX : mget (SK p x y) (sessions (apply_op (newSess C (sec p) (sec (negb p)) x y FX root nk) st)) = Some (sessAfter C x y FX root nk))
    by (apply newSess_get; exact U).
  assert (GO : forall x' y', In (x', y') (gSess g p) -> mget (SK p x' y') (sessions (apply_op (newSess C (sec p) (sec (negb p)) x y FX root nk) st)) = mget (SK p x' y') (sessions st)).
  { intros x' y' H. cbn [newSess apply_op sessions]. apply mget_mset_other. destruct (b_tags _ _ _ B _ _ H) as [T1 T2]. intros F.
    apply (SK_inj p x' y' x y) in F; try assumption; try (eapply ownT_used; eassumption). destruct F as [-> ->]. contradiction. }
  destruct B as [B1 B2 B3 B4 B5 B6 B7 B8]. constructor; try assumption.
  - intros x' y' H. cbn [gNew gSess] in H. rewrite upd_same in H. destruct H as [H|H].
    + injection H as <- <-. exists (sessAfter C x y FX root nk), root, cr, (N.to_nat nk). split; [exact GX|]. split; [apply gp_new|]. split; [exact L|]. split; [exact W|].
      split; [apply sessAfter_ok|]. split; [lia|].
      split; intros i Hi F; exfalso; cbn [sessAfter sSend sRecv] in F; rewrite keysFor_nth in F by exact Hi; exact (msgKeyText_nonnil _ _ _ _ F).
    + destruct (B1 x' y' H) as (s & root' & cr' & n & A1 & A2 & A3). exists s, root', cr', n. rewrite GO by exact H. split; [exact A1|]. split; [now apply (x_G _ _ E)|exact A3].
  - intros sk s H. cbn [newSess apply_op sessions] in H. cbn [gNew gSess]. rewrite upd_same.
    change (sessKeyOf C (idHash C (sec p)) (idHash C (sec (negb p))) (dhpub C x) (dhpub C y)) with (SK p x y) in H.
    destruct (beqP sk (SK p x y)) as [->|Ne]; [exists x, y; split; [now left|reflexivity]|].
    rewrite mget_mset_other in H by exact Ne. destruct (B2 sk s H) as (x' & y' & A1 & A2). exists x', y'. split; [now right|exact A2].
  - intros x' y' H. cbn [gNew gSess] in H. rewrite upd_same in H. destruct H as [H|H]; [injection H as <- <-; auto|apply B3; exact H].
  - intros x' y' i H. cbn [gNew gSess]. rewrite upd_same. right. now apply B8 with i.
Qed.
Lemma stS_newSess p st g x y root nk c x0 y0 on : base p st g -> tagsOk used g -> ownT g p x -> ownT g (negb p) y -> In (x0, y0) (gSess g p) ->
  ~ In (x, y) (gSess g p) ->
  stS p st c x0 y0 on -> stS p (apply_op (newSess C (sec p) (sec (negb p)) x y FX root nk) st) c x0 y0 on.
Proof.
  intros B T X Y I0 N [S1 S2]. constructor; [|exact S2]. intros s H. apply S1. rewrite <- H. symmetry. cbn [newSess apply_op sessions]. apply mget_mset_other.
  destruct (b_tags _ _ _ B _ _ I0) as [T1 T2]. intros F.
  apply (SK_inj p x0 y0 x y) in F; try assumption; try (eapply ownT_used; eassumption). destruct F as [-> ->]. contradiction.
Qed.
Lemma stG_newSess p g ss x0 y0 on os x y v : stG p g ss x0 y0 on os -> gp g p x y = None \/ gp g p x y = Some v -> on <> Some x ->
  stG p (gNew p x y v g) ss x0 y0 on os.
Proof.
  intros [S1 S2 S3 S4 S5 S6 S7 S8 S9 S10 S11] G N. pose proof (ext_new p x y v g G) as E. constructor; try assumption.
  - now apply (x_sess _ _ E).
  - destruct S8 as [S8|S8]; [left; now apply (x_sess _ _ E)|right; eapply kiCond_ext; eassumption].
  - intros n Hn. destruct (S10 n Hn) as (A1 & A2 & A3 & A4). repeat split; auto. intros z H. cbn [gNew gSess] in H. rewrite upd_same in H.
    destruct H as [H|H]; [injection H as <- <-; congruence|auto].
  - intros s Hs. destruct (S11 s Hs) as (n & root & cr & A1 & A2 & A3 & A4). exists n, root, cr.
    split; [exact A1|]. split; [now apply (x_sess _ _ E)|]. split; now apply (x_G _ _ E).
Qed.
Lemma refill_sess p st x y root own peer n m t : mget (SK p x y) (sessions st) = Some t -> forall x' y' s',
  mget (SK p x' y') (sessions (apply_op (refillOp C (SK p x y) root own peer FX n m) st)) = Some s' ->
  (SK p x' y' = SK p x y /\ s' = refilled C root own peer FX n m t) \/ (SK p x' y' <> SK p x y /\ mget (SK p x' y') (sessions st) = Some s').
Proof.
  intros G x' y' s' H. destruct (beqP (SK p x' y') (SK p x y)) as [E|N].
  - left. split; [exact E|]. rewrite E, (refill_get _ _ _ _ _ _ _ _ _ _ G) in H. apply someInj in H. auto.
  - right. split; [exact N|]. unfold refillOp in H. cbn [apply_op sessions] in H. rewrite mget_mset_other in H by exact N. exact H.
Qed.
Lemma base_refill p st g x y s root cr n m : base p st g -> tagsOk used g -> In (x, y) (gSess g p) ->
  mget (SK p x y) (sessions st) = Some s -> gp g p x y = Some (root, cr) -> sessOk C root (dhpub C x) (dhpub C y) FX (b64enc (sha512 C root)) n s ->
  base p (apply_op (refillOp C (SK p x y) root (dhpub C x) (dhpub C y) FX n m) st) g.
Proof.
  intros B T I0 G0 R0 O0. pose proof B as BB. destruct B as [B1 B2 B3 B4 B5 B6 B7 B8]. constructor; try assumption.
  - intros x' y' H. destruct (B1 x' y' H) as (s' & root' & cr' & n' & A1 & A2 & A3 & A4 & A5 & A6 & A7 & A8).
    destruct (beqP (SK p x' y') (SK p x y)) as [E|N].
    + destruct (B3 _ _ H) as [T1 T2]. destruct (B3 _ _ I0) as [T3 T4]. apply SK_inj in E; try (eapply ownT_used; eassumption). destruct E as [-> ->].
      rewrite R0 in A2. injection A2 as <- <-. rewrite G0 in A1. injection A1 as <-.
      assert (n' = n) as -> by (rewrite <- (so_slen _ _ _ _ _ _ _ _ A5); apply (so_slen _ _ _ _ _ _ _ _ O0)).
      exists (refilled C root (dhpub C x) (dhpub C y) FX n m s), root, cr, (n + m)%nat.
      split; [apply refill_get; exact G0|]. split; [exact R0|]. split; [exact A3|]. split; [exact A4|]. split; [apply refilled_ok; exact A5|]. split; [lia|].
      split; intros i Hi F; destruct (Nat.lt_ge_cases i n) as [Q|Q].
      * rewrite (proj1 (refilled_old _ _ _ _ _ _ _ m _ _ A5 Q)) in F. now apply A7.
      * exfalso. exact (proj1 (refilled_new _ _ _ _ _ _ _ m _ i A5 ltac:(lia)) F).
      * rewrite (proj2 (refilled_old _ _ _ _ _ _ _ m _ _ A5 Q)) in F. now apply A8.
      * exfalso. exact (proj2 (refilled_new _ _ _ _ _ _ _ m _ i A5 ltac:(lia)) F).
    + exists s', root', cr', n'. unfold refillOp. cbn [apply_op sessions]. rewrite mget_mset_other by exact N. repeat (split; [assumption|]). assumption.
  - intros sk s' H. unfold refillOp in H. cbn [apply_op sessions] in H. destruct (beqP sk (SK p x y)) as [->|N]; [exists x, y; auto|].
    rewrite mget_mset_other in H by exact N. eauto.
Qed.
Lemma stS_refill p st x y root own peer n m c x0 y0 on : (exists s, mget (SK p x y) (sessions st) = Some s) ->
  stS p st c x0 y0 on -> stS p (apply_op (refillOp C (SK p x y) root own peer FX n m) st) c x0 y0 on.
Proof.
  intros [s Es] [S1 S2]. constructor; [|exact S2]. intros s' H. apply (refill_sess _ _ _ _ _ _ _ _ _ _ Es) in H as [(E & H)|(N & H)]; [|auto].
  subst s'. rewrite E in S1. specialize (S1 s Es). cbn [refilled sSend]. rewrite lenN_app. lia.
Qed.
(* deleting a used message key *)
Definition delKey (sender : bool) (i : nat) (s : sess) : sess :=
  if sender then mkSess (sRoot s) (sChain s) (set_nth i [] (sSend s)) (sRecv s) else mkSess (sRoot s) (sChain s) (sSend s) (set_nth i [] (sRecv s)).
Lemma delKey_len b i s : lenN (sSend (delKey b i s)) = lenN (sSend s).
Proof. destruct b; cbn [delKey sSend]; [apply set_nth_lenN|reflexivity]. Qed.
Lemma del_apply sk b i st s : mget sk (sessions st) = Some s ->
  apply_op (ODelMsgKey sk b i) st = mkStore (privKEs st) (pubKEs st) (states st) (mset sk (delKey b (N.to_nat i) s) (sessions st)) (skeys st).
Proof. intros H. cbn [apply_op]. rewrite H. reflexivity. Qed.
Lemma base_del p st g x y (sender : bool) i : base p st g -> tagsOk used g -> In (x, y) (gSess g p) ->
  (if sender then In (x, y, i) (gSent g p) else In (y, x, i) (gDel g (negb p))) ->
  base p (apply_op (ODelMsgKey (SK p x y) sender i) st) g.
Proof.
  intros B T I0 D. pose proof B as BB. destruct B as [B1 B2 B3 B4 B5 B6 B7 B8].
  destruct (B1 x y I0) as (s & root & cr & n & A1 & A2 & A3 & A4 & A5 & A6 & A7 & A8). rewrite (del_apply _ _ _ _ _ A1). constructor; try assumption; cbn [sessions].
  - intros x' y' H. destruct (beqP (SK p x' y') (SK p x y)) as [E|N].
    + destruct (B3 _ _ H) as [T1 T2]. destruct (B3 _ _ I0) as [T3 T4]. apply SK_inj in E; try (eapply ownT_used; eassumption). destruct E as [-> ->].
      exists (delKey sender (N.to_nat i) s), root, cr, n. split; [apply mget_mset_same|]. split; [exact A2|]. split; [exact A3|]. split; [exact A4|].
      split; [apply sessOk_del; exact A5|]. split; [exact A6|].
      split; intros j Hj F; destruct sender; cbn [delKey sSend sRecv] in F; try (now auto); destruct (Nat.eq_dec j (N.to_nat i)) as [Ej|Nj];
        try (rewrite Ej, N2Nat.id; exact D); rewrite nth_set_other in F by exact Nj; auto.
    + rewrite mget_mset_other by exact N. exact (B1 x' y' H).
  - intros sk s' H. destruct (beqP sk (SK p x y)) as [->|N]; [exists x, y; auto|]. rewrite mget_mset_other in H by exact N. eauto.
Qed.
Lemma stS_del p st g x y sender i c x0 y0 on : base p st g -> In (x, y) (gSess g p) ->
  stS p st c x0 y0 on -> stS p (apply_op (ODelMsgKey (SK p x y) sender i) st) c x0 y0 on.
Proof.
  intros B I0 [S1 S2]. destruct (b_sess _ _ _ B x y I0) as (s & root & cr & n & A1 & _). rewrite (del_apply _ _ _ _ _ A1). constructor; cbn [sessions skeys]; [|exact S2].
  intros s' H. destruct (beqP (SK p x0 y0) (SK p x y)) as [E|N].
  - rewrite E, mget_mset_same in H. injection H as <-. rewrite delKey_len. rewrite E in S1. auto.
  - rewrite mget_mset_other in H by exact N. auto.
Qed.
End Inv.
