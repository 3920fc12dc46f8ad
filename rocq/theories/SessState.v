(* What a call of Decrypt does to the session state: for every store and every message. *)
From Verif Require Import Base Base64Model CodecModel JsonModel Maps CryptoModel StoreModel KeysModel KeysProofs MsgFormatModel HeaderModel ProtoModel ProtoProofs ConvSend.
Local Open Scope N_scope.

Definition noState (o : op) : Prop := match o with OSetState _ _ => False | _ => True end.
Lemma noState_states l : Forall noState l -> forall st, states (fold_left (fun s o => apply_op o s) l st) = states st.
Proof.
  intros F. induction F as [|o l H F IH]; intros st; cbn [fold_left]; [reflexivity|]. rewrite IH. destruct o; cbn [apply_op states] in *; try reflexivity; try contradiction.
  all: repeat match goal with |- context [match ?x with _ => _ end] => destruct x end; reflexivity.
Qed.
Lemma quiet {A} (m : M A) w r w' : traced noState m -> m w = (r, w') -> states (wStore w') = states (wStore w).
Proof.
  intros T E. destruct (T w) as (l & S & F). rewrite E in S. cbn [snd] in S. subst w'. rewrite steps_store. apply (noState_states l F).
Qed.
Lemma ask_ok {A} (f : store -> A) w r w' : ask f w = (Ok r, w') -> r = f (wStore w) /\ w' = w.
Proof. unfold ask. intros H. apply okpair in H as [<- <-]. auto. Qed.
Lemma lift_ok {A} (x : res A) w r w' : lift x w = (Ok r, w') -> x = Ok r /\ w' = w.
Proof. unfold lift. intros H. destruct x; inversion H; auto. Qed.

Definition current (h : header) (ss : state) : bool := beq (hRecipTempHash h) (keHash (stSenderPub ss)) && beq (keHash (hSessPub h)) (keHash (stRecipTemp ss)).
Definition afterUnknown (C : Crypto) (me : bytes) (h : header) (z : bytes) (oki : option keyEntry) (oss : option state) : option state :=
  match oki with
  | None => oss
  | Some ki =>
    if match oss with None => true | Some ss => stKeyInit ss && bltb (hSender h) me end
    then Some (mkState 0 0 0 (hSessPub h) ki (Some (initDHKey C z)) (hNext h) (hNym h) false) else oss
  end.
Definition afterKnown (C : Crypto) (h : header) (z : bytes) (stored : keyEntry) (ss : state) : state :=
  if current h ss then
    match hNext h with
    | None => ss
    | Some hn =>
      match stNextSender ss with
      | None => mkState (stSessCount ss) (stMsgCount ss) (stMaxRecv ss) (stRecipTemp ss) (stSenderPub ss) (Some (initDHKey C z))
                        (match stNextSeen ss with None => Some hn | Some s => Some s end) (stNym ss) (stKeyInit ss)
      | Some own => if isHash (keHash own) (hSeen h) then switched ss hn stored (hNym h) else ss
      end
    end
  else match stNextSender ss with
       | Some own => if isHash (hRecipTempHash h) (Some own) && isHash (keHash (hSessPub h)) (stNextSeen ss) then switched ss (hSessPub h) own (hNym h) else ss
       | None => ss
       end.

Lemma setState_get w k ss : mget k (states (wStore (step_op w (OSetState k ss)))) = Some ss.
Proof. cbn [step_op wStore apply_op states]. apply mget_mset_same. Qed.
Lemma decUnknown_track C hp i ke h key sk oss nk z cl w oss' w' :
  mget key (states (wStore w)) = oss -> decUnknown C hp i ke h key sk oss nk z cl w = (Ok oss', w') ->
  oss' = afterUnknown C (uIdentity (idUid i)) h z (option_map fst (mget (hRecipTempHash h) (privKEs (wStore w)))) oss /\
  mget key (states (wStore w')) = oss'.
Proof.
  intros ST E. unfold decUnknown in E. apply mbind_ok in E as (oki & w1 & Q & E). apply ask_ok in Q as [-> ->].
  unfold afterUnknown. destruct (mget (hRecipTempHash h) (privKEs (wStore w))) as [[ki kp]|]; cbn [option_map fst].
  2:{ apply okpair in E as [<- <-]. auto. }
  apply mbind_ok in E as (rp & w1 & Q & E). apply lift_ok in Q as [_ ->]. apply mbind_ok in E as (u & w1 & Q & E).
  apply (quiet _ _ _ _ (traced_rkaR C noState _ _ _ _ _ _ _ _ _ _ _ ltac:(intros; exact I))) in Q.
  destruct (match oss with None => true | Some ss => stKeyInit ss && bltb (hSender h) (uIdentity (idUid i)) end).
  2:{ apply okpair in E as [<- <-]. rewrite Q. auto. }
  apply mbind_ok in E as (u1 & w2 & Q1 & E). apply mbind_ok in E as (u2 & w3 & Q2 & E). apply mbind_ok in E as (u3 & w4 & Q3 & E).
  apply okpair in E as [<- <-]. split; [reflexivity|]. rewrite emit_eq in Q3. apply okpair in Q3 as [_ <-]. apply setState_get.
Qed.
Lemma decKnown_track C hp i ke h key sk oss nk z cl w oss' w' :
  mget key (states (wStore w)) = oss -> decKnown C hp i ke h key sk oss nk z cl w = (Ok oss', w') ->
  exists ss stored, oss = Some ss /\ oss' = Some (afterKnown C h z stored ss) /\ mget key (states (wStore w')) = oss' /\
    (forall own, stNextSender ss = Some own -> current h ss = true -> hNext h <> None -> isHash (keHash own) (hSeen h) = true -> exists op v, getSessionKey (keHash own) w = (Ok (stored, op), v)).
Proof.
  intros ST E. unfold decKnown in E. destruct oss as [ss|]; [|discriminate]. exists ss.
  apply mbind_ok in E as (ss1 & w1 & E & D). apply mbind_ok in D as (u & w2 & D1 & D2). apply okpair in D2 as [<- <-].
  rewrite emit_eq in D1. apply okpair in D1 as [_ <-].
  enough (G : exists stored, ss1 = afterKnown C h z stored ss /\ mget key (states (wStore w1)) = Some ss1 /\
    (forall own, stNextSender ss = Some own -> current h ss = true -> hNext h <> None -> isHash (keHash own) (hSeen h) = true -> exists op v, getSessionKey (keHash own) w = (Ok (stored, op), v))).
  { destruct G as (stored & G1 & G2 & G3). exists stored. split; [reflexivity|]. split; [now rewrite G1|]. split; [|exact G3].
    change (wStore (step_op w1 (ODelPriv (hRecipTempHash h)))) with (apply_op (ODelPriv (hRecipTempHash h)) (wStore w1)). cbn [apply_op].
    destruct (mget (hRecipTempHash h) (skeys (wStore w1))); exact G2. }
  unfold afterKnown. fold (current h ss) in E. destruct (current h ss).
  - destruct (hNext h) as [hn|]; [|apply okpair in E as [<- <-]; exists (stSenderPub ss); split; [reflexivity|]; split; [exact ST|]; intros own _ _ Q; now destruct Q].
    destruct (stNextSender ss) as [own|].
    + destruct (isHash (keHash own) (hSeen h)) eqn:IH.
      * apply mbind_ok in E as ([next op] & v & Q & E). exists next. split; [|split].
        3:{ intros own' EO _ _ _. injection EO as <-. exists op, v. exact Q. }
        -- repeat (apply mbind_ok in E as (? & ? & _ & E)). apply okpair in E as [<- _]. reflexivity.
        -- apply mbind_ok in E as (prev & v1 & _ & E). apply mbind_ok in E as (rp & v2 & _ & E). apply mbind_ok in E as (np & v3 & _ & E). apply mbind_ok in E as (u1 & v4 & _ & E).
           apply mbind_ok in E as (u2 & v5 & Q5 & E). apply okpair in E as [<- <-]. rewrite emit_eq in Q5. apply okpair in Q5 as [_ <-]. apply setState_get.
      * apply okpair in E as [<- <-]. exists (stSenderPub ss). split; [reflexivity|]. split; [exact ST|]. intros own' EO _ _ Q. injection EO as <-. congruence.
    + exists (stSenderPub ss). split; [|split; [|discriminate]].
      * apply mbind_ok in E as ([next ss'] & v & Q & E). unfold setNextSenderSessionPub in Q. apply mbind_ok in Q as (u1 & v1 & _ & Q). apply mbind_ok in Q as (u2 & v2 & _ & Q).
        apply okpair in Q as [Q _]. apply pair_inj in Q as [<- <-]. cbn [stNextSeen stSessCount stMsgCount stMaxRecv stRecipTemp stSenderPub stNextSender stNym stKeyInit] in E.
        apply mbind_ok in E as (prev & v3 & _ & E). apply mbind_ok in E as (rp & v4 & _ & E). apply mbind_ok in E as (u3 & v5 & _ & E).
        destruct (stNextSeen ss) as [s|]; [apply okpair in E as [<- _]; reflexivity|].
        apply mbind_ok in E as (u4 & v6 & _ & E). apply okpair in E as [<- _]. reflexivity.
      * apply mbind_ok in E as ([next ss'] & v & Q & E). unfold setNextSenderSessionPub in Q. apply mbind_ok in Q as (u1 & v1 & _ & Q). apply mbind_ok in Q as (u2 & v2 & Q0 & Q).
        apply okpair in Q as [Q EW]. apply pair_inj in Q as [<- <-]. subst v2. rewrite emit_eq in Q0. apply okpair in Q0 as [_ <-].
        cbn [stNextSeen stSessCount stMsgCount stMaxRecv stRecipTemp stSenderPub stNextSender stNym stKeyInit] in E.
        apply mbind_ok in E as (prev & v3 & Q3 & E). apply mbind_ok in E as (rp & v4 & Q4 & E). apply mbind_ok in E as (u3 & v5 & Q5 & E).
        apply (quiet _ _ _ _ (traced_rkaS C noState _ _ _ _ _ _ _ _ _ _ _ ltac:(intros; exact I))) in Q5. apply lift_ok in Q4 as [_ ->].
        assert (v3 = step_op v1 (OSetState key (mkState (stSessCount ss) (stMsgCount ss) (stMaxRecv ss) (stRecipTemp ss) (stSenderPub ss) (Some (initDHKey C z)) (stNextSeen ss) (stNym ss) (stKeyInit ss)))) as ->.
        { revert Q3. unfold getRootKeyHash. intros Q3. now inversion Q3. }
        destruct (stNextSeen ss) as [s|].
        -- apply okpair in E as [<- <-]. rewrite Q5. apply setState_get.
        -- apply mbind_ok in E as (u4 & v6 & Q6 & E). apply okpair in E as [<- <-]. rewrite emit_eq in Q6. apply okpair in Q6 as [_ <-]. apply setState_get.
  - exists (stSenderPub ss). split; [|split; [|intros own _ Q; discriminate]].
    + destruct (stNextSender ss) as [own|]; [|apply okpair in E as [<- _]; reflexivity].
      destruct (isHash (hRecipTempHash h) (Some own) && isHash (keHash (hSessPub h)) (stNextSeen ss)); [|apply okpair in E as [<- _]; reflexivity].
      apply mbind_ok in E as (u0 & v & _ & E). apply okpair in E as [<- _]. reflexivity.
    + destruct (stNextSender ss) as [own|]; [|apply okpair in E as [<- <-]; exact ST].
      destruct (isHash (hRecipTempHash h) (Some own) && isHash (keHash (hSessPub h)) (stNextSeen ss)); [|apply okpair in E as [<- <-]; exact ST].
      apply mbind_ok in E as (u0 & v & Q & E). apply okpair in E as [<- <-]. rewrite emit_eq in Q. apply okpair in Q as [_ <-]. apply setState_get.
Qed.
(* the state of the conversation with the sender of the message after Decrypt has looked at the header *)
Definition recvKey (C : Crypto) (i : ident) (h : header) (key sk : bytes) : Prop :=
  exists ke rp sp, pubKey (idUid i) = Ok ke /\ pub32 ke = Ok rp /\ pub32 (hSenderPub h) = Ok sp /\ key = calcStateKey C rp sp /\
    sk = calcKey C (keHash ke) (keHash (hSenderPub h)) (hRecipTempHash h) (keHash (hSessPub h)).
Definition after (C : Crypto) (me : bytes) (h : header) (z : bytes) (stored : keyEntry) (known : bool) (oki : option keyEntry) (oss : option state) : option state :=
  if known then option_map (afterKnown C h z stored) oss else afterUnknown C me h z oki oss.
Lemma decState_track C ra hp i h w ke sk oss' w' : decState C ra hp i h w = (Ok (ke, sk, oss'), w') ->
  exists key stored, recvKey C i h key sk /\ pubKey (idUid i) = Ok ke /\
    let oss := mget key (states (wStore w)) in
    oss' = after C (uIdentity (idUid i)) h (dPriv ra) stored (mhas sk (sessions (wStore w))) (option_map fst (mget (hRecipTempHash h) (privKEs (wStore w)))) oss /\
    mget key (states (wStore w')) = oss' /\
    (mhas sk (sessions (wStore w)) = true -> oss <> None) /\
    (forall ss own, oss = Some ss -> stNextSender ss = Some own -> mhas sk (sessions (wStore w)) = true -> current h ss = true -> hNext h <> None -> isHash (keHash own) (hSeen h) = true -> exists op v, getSessionKey (keHash own) w = (Ok (stored, op), v)).
Proof.
  intros E. unfold decState in E. apply mbind_ok in E as (ke0 & w1 & Q & E). apply lift_ok in Q as [K1 ->].
  apply mbind_ok in E as (rp & w1 & Q & E). apply lift_ok in Q as [K2 ->]. apply mbind_ok in E as (sp & w1 & Q & E). apply lift_ok in Q as [K3 ->].
  cbv zeta in E. set (key := calcStateKey C rp sp) in *. apply mbind_ok in E as (oss & w1 & Q & E). unfold getSessionState in Q. apply ask_ok in Q as [-> ->].
  set (sk0 := calcKey C (keHash ke0) (keHash (hSenderPub h)) (hRecipTempHash h) (keHash (hSessPub h))) in *.
  apply mbind_ok in E as (kn & w1 & Q & E). unfold hasSession in Q. apply ask_ok in Q as [-> ->].
  apply mbind_ok in E as (o & w1 & Q & E). apply okpair in E as [E <-]. apply pair_inj in E as [E <-]. apply pair_inj in E as [<- <-].
  assert (RK : recvKey C i h key sk0) by (exists ke0, rp, sp; auto).
  destruct (mhas sk0 (sessions (wStore w))) eqn:KN.
  - apply decKnown_track in Q as (ss & stored & Q1 & Q2 & Q3 & Q4); [|reflexivity]. exists key, stored. split; [exact RK|]. split; [exact K1|]. cbv zeta. rewrite Q1. cbn [option_map after].
    split; [exact Q2|]. split; [exact Q3|]. split; [discriminate|]. intros ss0 own A B _. injection A as <-. now apply Q4.
  - apply decUnknown_track in Q as [Q1 Q2]; [|reflexivity]. exists key, ke0. split; [exact RK|]. split; [exact K1|]. cbv zeta. split; [exact Q1|]. split; [exact Q2|]. split; discriminate.
Qed.
Lemma traced_decKey_noState C i ke h sk oss nk : traced noState (decKey C i ke h sk oss nk).
Proof. unfold decKey. trk. Qed.
Lemma traced_delMsg_noState sk b n : traced noState (delMessageKey sk b n).
Proof. unfold delMessageKey. trk. Qed.
Definition restOf (C : Crypto) (ra : decArgs) (i : ident) (h : header) (s : bytes) (x : keyEntry * bytes * option state) : M (bytes * bytes) :=
  let '(recipKE, sk, oss) := x in
  dom mk <- decKey C i recipKE h sk oss (numKeys (dNumKeys ra));
  dom (o2, o3, ih, s) <- lift (openContent C mk s);
  dom _ <- emit (OOutput (iContent ih));
  dom sig <- lift (openRest C mk (hUID h) o2 o3 ih s);
  dom _ <- delMessageKey sk false (hMsgCount h);
  mret (hSender h, sig).
Lemma rest_quiet C ra i h s x : traced noState (restOf C ra i h s x).
Proof.
  unfold restOf. destruct x as [[ke sk] oss]. apply traced_bind; [apply traced_decKey_noState|]. intros mk. apply traced_bind; [apply traced_lift|]. intros [[[o2 o3] ih] s'].
  apply traced_bind; [apply traced_emit; exact I|]. intros u. apply traced_bind; [apply traced_lift|]. intros sig. apply traced_bind; [apply traced_delMsg_noState|]. intros u'.
  apply traced_pure. reflexivity.
Qed.
(* Decrypt that succeeds: the header it read and the state it leaves *)
Definition readsHeader (C : Crypto) (ra : decArgs) (msg hp : bytes) (i : ident) (h : header) (s : bytes) : Prop :=
  exists raw pre s0, b64dec msg = Some raw /\ ReadFirstOuterHeader raw = Ok (Version, pre, s0) /\ decHeader C (dIds ra) pre s0 = Ok (hp, i, h, s).
Lemma receive_reads C ra msg hp i h s w : readsHeader C ra msg hp i h s -> receive C ra msg w = mbind (decState C ra hp i h) (restOf C ra i h s) w.
Proof.
  intros (raw & pre & s0 & E1 & E2 & E3). unfold receive. rewrite E1, E2, lift_bind, N.eqb_refl. cbn [negb]. unfold decrypt. rewrite E3, lift_bind. reflexivity.
Qed.
Lemma receive_ok C ra msg w x w' : receive C ra msg w = (Ok x, w') -> exists hp i h s y w1,
  readsHeader C ra msg hp i h s /\ decState C ra hp i h w = (Ok y, w1) /\ restOf C ra i h s y w1 = (Ok x, w') /\ states (wStore w') = states (wStore w1).
Proof.
  intros E. pose proof E as E0. unfold receive in E. destruct (b64dec msg) as [raw|] eqn:B; [|discriminate]. apply mbind_ok in E as ([[v pre] s0] & w1 & Q & E). apply lift_ok in Q as [R ->].
  destruct (N.eqb_spec v Version) as [->|]; cbn [negb] in E; [|discriminate]. unfold decrypt in E. apply mbind_ok in E as ([[[hp i] h] s] & w1 & Q & E). apply lift_ok in Q as [D ->].
  assert (RH : readsHeader C ra msg hp i h s) by (exists raw, pre, s0; auto). rewrite (receive_reads _ _ _ _ _ _ _ _ RH) in E0.
  apply mbind_ok in E0 as (y & w1 & Q & E1). exists hp, i, h, s, y, w1. split; [exact RH|]. split; [exact Q|]. split; [exact E1|].
  eapply quiet; [apply rest_quiet|exact E1].
Qed.
