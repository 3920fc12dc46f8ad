(* Both parties have proposed a next session before they saw the other's proposal. *)
From Verif Require Import Base Base64Model CodecModel JsonModel Maps CryptoModel StoreModel KeysModel MsgFormatModel HeaderModel ProtoModel SessState ConvModel ConvSteps ConvInv ConvProofs ConvSend ConvRecv ConvMain ConvTrack ConvDyn.
Local Open Scope N_scope.

Section Stuck.
Variable C : Crypto.
Variable P : bool -> party.
(* the conversation goes on, without reset messages *)
Inductive later (c : conv) : conv -> Prop :=
| LHere : later c c
| LStep c1 c2 : later c c1 -> step C P c1 c2 -> (forall p m, In m (cNet c2 p) -> eStatus (sArgs m) <> StatusReset) -> later c c2.
Lemma later_used c c' : later c c' -> incl (cUsed c) (cUsed c').
Proof. intros L. induction L as [|c1 c2 L IH S _]; [intros x Hx; exact Hx|]. eapply incl_tran; [exact IH|eapply step_used; exact S]. Qed.

(* p has proposed a key and did not see a proposal of the other party *)
Record waits (p : bool) (ss : state) : Prop := {
  wt_next : stNextSender ss <> None;
  wt_seen : stNextSeen ss = None;
  wt_init : stKeyInit ss = false \/ bltb (pName (P (negb p))) (pName (P p)) = false }.
Definition stuckState (p : bool) (x y : keyEntry) (st : store) : Prop :=
  exists ss, mget (stateKey C P p) (states st) = Some ss /\ waits p ss /\ stSenderPub ss = x /\ stRecipTemp ss = y.
Definition stuckMsg (p : bool) (m : sent) : Prop :=
  exists h, carries C P (negb p) m h /\ hSender h = pName (P p) /\ hSenderPub h = initDHKey C (sec P p) /\ hSeen h = None.

Lemma stuck_after p ss h z stored kn oki : waits p ss -> hSender h = pName (P (negb p)) -> hSeen h = None ->
  after C (pName (P p)) h z stored kn oki (Some ss) = Some ss.
Proof.
  intros [W1 W2 W3] HN HS. unfold after. destruct kn; cbn [option_map].
  - f_equal. unfold afterKnown. destruct (stNextSender ss) as [own|]; [|now destruct W1]. rewrite HS, W2. cbn [isHash].
    destruct (current h ss); [destruct (hNext h); reflexivity|]. rewrite Bool.andb_false_r. reflexivity.
  - unfold afterUnknown. destruct oki as [ki|]; [|reflexivity]. rewrite HN. destruct W3 as [->| ->]; [reflexivity|]. rewrite Bool.andb_false_r. reflexivity.
Qed.
Theorem stuck_stays x y c0 c c' : reach C P c0 c -> (forall p, stuckState p (x p) (y p) (cStore c p)) -> (forall p m, In m (cNet c p) -> stuckMsg p m) ->
  later c c' -> noColl C P (cUsed c') ->
  reach C P c0 c' /\ (forall p, stuckState p (x p) (y p) (cStore c' p)) /\ (forall p m, In m (cNet c' p) -> stuckMsg p m).
Proof.
  intros R SS SM L. induction L as [|c1 c2 L IH S NR]; intros NC; [auto|].
  destruct (IH (noColl_incl C P _ _ (step_used C P _ _ S) NC)) as (R1 & SS1 & SM1). split; [eapply RStep; eassumption|].
  destruct (reach_inv C P _ _ R1 (noColl_incl C P _ _ (step_used C P _ _ S) NC)) as [g I].
  destruct S as [p a r c1 nym w SO NB FR EN|p ra c1 l1 m l2 res w l NET RO FR RU HL|p c1 l1 m l2 NET]; cbn [cUsed cStore cNet] in *.
  - destruct (send_carries C P c1 g p a r nym w I NC SO NB FR EN (sessOf C P p (wStore w)) (numOf C P p a (cStore c1 p))) as (ss & h & MS & HF & CA).
    assert (ST : stuckState p (x p) (y p) (wStore w) /\ waits p ss).
    { pose proof (send_track C P p a r _ nym w SO EN) as TR. assert (NRs : eStatus a =? StatusReset = false).
      { apply N.eqb_neq. apply (NR p (mkSent a (sessOf C P p (wStore w)) (numOf C P p a (cStore c1 p)) (wOut w))). rewrite upd_same. apply in_or_app. right. now left. }
      rewrite NRs in TR. destruct (SS1 p) as (s0 & Q1 & [Q2 Q3 Q4] & Q5 & Q6). rewrite Q1 in TR. rewrite MS in TR. apply someInj in TR. subst ss.
      assert (W : waits p (stateNext C a r s0)).
      { constructor; cbn [stateNext stNextSender stNextSeen stKeyInit]; try assumption. unfold nextOf. destruct (stNextSender s0); [|now destruct Q2].
        destruct (eStatus a =? StatusError); discriminate. }
      split; [|exact W]. exists (stateNext C a r s0). auto. }
    destruct ST as [ST W]. split.
    + intros q. destruct (upd_cases (cStore c1) p (wStore w) q) as [[-> ->]|[-> ->]]; [exact ST|apply SS1].
    + intros q m Hm. revert Hm. match goal with |- context[upd (cNet c1) p ?l] => destruct (upd_cases (cNet c1) p l q) as [[-> ->]|[-> ->]] end; [|apply SM1].
      intros Hm. apply in_app_or in Hm as [Hm|[<-|[]]]; [now apply SM1|]. exists h. destruct HF. split; [exact CA|]. split; [assumption|]. split; [assumption|].
      rewrite hf_seen. apply (wt_seen _ _ W).
  - split.
    + intros q. destruct (upd_cases (cStore c1) p (wStore w) q) as [[-> ->]|[-> ->]]; [|apply SS1].
      assert (IM : In m (cNet c1 (negb p))) by (rewrite NET; apply in_or_app; right; now left).
      destruct (SM1 (negb p) m IM) as (h & H1 & H2 & H3 & H4). rewrite negb_involutive in H1.
      destruct (recv_track C P c1 g p ra l1 m l2 h res w I NC NET RO FR H1 H3 RU) as (stored & TR & _). destruct (SS1 p) as (ss & Q1 & W & Q2 & Q3).
      cbv zeta in TR. rewrite Q1, (stuck_after p ss h _ _ _ _ W H2 H4) in TR. exists ss. auto.
    + intros q m' Hm. revert Hm. destruct (upd_cases (cNet c1) (negb p) l q) as [[-> ->]|[-> ->]]; [|apply SM1]. intros Hm. apply SM1. rewrite NET.
      destruct HL as [->|[_ ->]]; [|exact Hm]. apply in_app_or in Hm. apply in_or_app. destruct Hm; [now left|right; now right].
  - split; [apply SS1|]. intros q m' Hm. revert Hm. destruct (upd_cases (cNet c1) p (l1 ++ l2) q) as [[-> ->]|[-> ->]]; [|apply SM1]. intros Hm. apply SM1. rewrite NET.
    apply in_app_or in Hm. apply in_or_app. destruct Hm; [now left|right; now right].
Qed.
End Stuck.
