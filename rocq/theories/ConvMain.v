(* The invariant holds in every state of every conversation. *)
From Verif Require Import Base Base64Model Base64Proofs CodecModel CodecProofs JsonModel JsonProofs Maps CryptoModel StoreModel KeysModel KeysProofs MsgFormatModel MsgFormatProofs HeaderModel HeaderProofs ProtoModel ProtoProofs ProtoFirst ConvModel ConvSteps ConvInv ConvProofs ConvSend ConvRecv.
Local Open Scope N_scope.

Section Main.
Variable C : Crypto.
Variable P : bool -> party.
Notation sec := (sec P).
Lemma noColl_incl used used' : incl used used' -> noColl C P used' -> noColl C P used.
Proof.
  intros I H s t Hs Ht. apply H.
  - destruct Hs as [(k & K1 & K2)|(p & a & b & K1 & K2 & K3)]; [left; exists k|right; exists p, a, b]; auto.
  - destruct Ht as [(k & K1 & K2)|(p & a & b & K1 & K2 & K3)]; [left; exists k|right; exists p, a, b]; auto.
Qed.
Lemma step_used c c' : step C P c c' -> incl (cUsed c) (cUsed c').
Proof.
  intros S. destruct S; cbn [cUsed]; intros z Hz; [right; right|right|]; exact Hz.
Qed.
Definition mem (k : bytes) (l : list bytes) : bool := existsb (beq k) l.
Lemma mem_spec k l : mem k l = true <-> In k l.
Proof.
  unfold mem. rewrite existsb_exists. split; [intros (z & H & E); apply beq_spec in E; now subst|]. intros H. exists k. split; [exact H|apply beq_refl].
Qed.
Definition g0 : ghost :=
  mkG (fun k => if beq k (sec true) then Some (TStat true) else if beq k (sec false) then Some (TStat false)
                else if mem k (pKIs (P true)) then Some (TKI true) else if mem k (pKIs (P false)) then Some (TKI false) else None)
      (fun _ _ => None) (fun _ => []) (fun _ => []) (fun _ => []).
Lemma start_inv c : start C P c -> inv C P c g0.
Proof.
  intros [S1 S2 S3 S4 S5 S6 S7 S8].
  assert (ND : NoDup (knownKeys P)) by (apply (NoDup_map_inv (dhpub C)); exact S2). unfold knownKeys in ND.
  pose proof ND as ND'. inversion ND' as [|? ? N1 N2]; subst. inversion N2 as [|? ? N3 N4]; subst. fold (sec true) in *. fold (sec false) in *.
  assert (DJ : forall k, In k (pKIs (P true)) -> ~ In k (pKIs (P false))).
  { intros k A B. clear -N4 A B. induction (pKIs (P true)) as [|a l IH]; [destruct A|]. cbn [app] in N4. inversion N4 as [|? ? M1 M2]; subst.
    destruct A as [<-|A]; [apply M1, in_or_app; now right|auto]. }
  constructor.
  - rewrite S1. exact S2.
  - constructor.
    + intros k t. rewrite S1. unfold knownKeys. cbn [g0 gT]. fold (sec true). fold (sec false).
      destruct (beqP k (sec true)) as [E|_]; [intros _; left; now symmetry|].
      destruct (beqP k (sec false)) as [E|_]; [intros _; right; left; now symmetry|].
      destruct (mem k (pKIs (P true))) eqn:M1; [intros _; right; right; apply in_or_app; left; now apply mem_spec|].
      destruct (mem k (pKIs (P false))) eqn:M2; [intros _; right; right; apply in_or_app; right; now apply mem_spec|discriminate].
    + intros p. cbn [g0 gT]. destruct p; [rewrite beq_refl; reflexivity|].
      destruct (beqP (sec false) (sec true)) as [E|_]; [exfalso; apply N1; left; exact E|]. rewrite beq_refl. reflexivity.
    + intros p k. cbn [g0 gT].
      destruct (beqP k (sec true)) as [E|NE1].
      { subst k. split; [|discriminate]. intros A. exfalso. apply N1. right. apply in_or_app. destruct p; auto. }
      destruct (beqP k (sec false)) as [E|NE2].
      { subst k. split; [|discriminate]. intros A. exfalso. apply N3. apply in_or_app. destruct p; auto. }
      destruct (mem k (pKIs (P true))) eqn:M1.
      { apply mem_spec in M1. destruct p; split; auto; try discriminate. intros A. exfalso. exact (DJ k M1 A). }
      destruct (mem k (pKIs (P false))) eqn:M2.
      { apply mem_spec in M2. destruct p; split; auto; try discriminate. intros A. exfalso. exact (DJ k A M2). }
      split; [|discriminate]. intros A. exfalso. apply mem_spec in A. destruct p; congruence.
    + intros p a b v H. destruct p; discriminate.
  - intros p. constructor; cbn [g0 gSess gSent gT]; try (intros; contradiction).
    + intros sk s H. rewrite S4 in H. discriminate.
    + intros k H. exfalso. revert H. destruct (beq k (sec true)); [discriminate|]. destruct (beq k (sec false)); [discriminate|].
      destruct (mem k (pKIs (P true))); [discriminate|]. destruct (mem k (pKIs (P false))); discriminate.
    + apply S6.
    + apply S7.
    + apply S8.
  - intros p. unfold stInv. rewrite S5. reflexivity.
  - intros p. exists []. rewrite S3. split; [constructor|]. split; [constructor|]. intros i [].
  - intros p i [].
Qed.
Lemma lose_inv c g p l1 m l2 : inv C P c g -> cNet c p = l1 ++ m :: l2 -> inv C P (mkConv (cStore c) (upd (cNet c) p (l1 ++ l2)) (cUsed c)) g.
Proof.
  intros [I1 I2 I3 I4 I5 I6] NET. constructor; cbn [cUsed cStore cNet]; try assumption.
  intros q. destruct (upd_cases (cNet c) p (l1 ++ l2) q) as [[-> ->]|[-> ->]]; [|apply I5].
  destruct (I5 p) as (ids & J1 & J2 & J3). rewrite NET in J1. apply Forall2_split in J1 as (k1 & id & k2 & -> & F1 & _ & F2).
  exists (k1 ++ k2). split; [now apply Forall2_app|]. split; [eapply NoDup_remove_1; exact J2|].
  intros j Q. apply J3. apply in_app_or in Q. apply in_or_app. destruct Q; [now left|right; now right].
Qed.
Lemma inv_ext c c' g : inv C P c g -> cStore c' = cStore c -> cUsed c' = cUsed c -> (forall q, cNet c' q = cNet c q) -> inv C P c' g.
Proof.
  intros [I1 I2 I3 I4 I5 I6] ES EU EN. constructor; rewrite ?EU, ?ES; try assumption. intros q. rewrite EN. apply I5.
Qed.
Theorem reach_inv c0 c : reach C P c0 c -> noColl C P (cUsed c) -> exists g, inv C P c g.
Proof.
  intros R. induction R as [S|c c' R IH S]; intros HC.
  - exists g0. now apply start_inv.
  - destruct (IH (noColl_incl _ _ (step_used _ _ S) HC)) as [g I]. destruct S as [p a r c nym w SO NB FR EN|p ra c l1 m l2 res w l NET RO FR RU HL|p c l1 m l2 NET]; cbn [cUsed] in HC.
    + eapply send_inv; eassumption.
    + destruct (recv_inv C P c g p ra l1 m l2 I HC NET RO FR) as [(_ & w' & g' & E & _ & _ & I')|(_ & w' & g' & E & _ & I')]; exists g'; rewrite RU in E; apply pair_inj in E as [-> ->].
      * destruct HL as [->|[F _]]; [exact I'|]. exfalso. exact (F _ eq_refl).
      * destruct HL as [->|[_ ->]]; [|exact I'].
        pose proof (lose_inv _ g' (negb p) l1 m l2 I') as Q. cbn [cNet cStore cUsed] in Q. specialize (Q (upd_same _ _ _)).
        eapply inv_ext; [exact Q|reflexivity|reflexivity|]. intros q. cbn [cNet]. unfold upd. destruct (Bool.eqb (negb p) q); reflexivity.
    + exists g. eapply lose_inv; eassumption.
Qed.
End Main.
