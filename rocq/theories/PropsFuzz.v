(* C199: the sequential fuzzer flips every bit of the range once and tells exactly whether every flip was noticed. *)
From Verif Require Import Base FuzzModel.
Local Open Scope N_scope.

(* ------------------------------------------------------------------ *)
(* The specification.  Bit k of a byte string; a string that differs in one bit; running a test on a list of strings. *)
Definition bitAt (d : list N) (k : Z) : bool := N.testbit (nth (Z.to_nat (k / 8)) d 0) (Z.to_N (k mod 8)).
Definition flipped (d : list N) (pos : Z) (x : list N) : Prop :=
  List.length x = List.length d /\ forall k, (0 <= k < 8 * Z.of_nat (List.length d))%Z -> bitAt x k = xorb (bitAt d k) (k =? pos)%Z.
Fixpoint runTests {E St} (f : St -> list N -> option E * St) (st : St) (xs : list (list N)) : list (option E) * St :=
  match xs with [] => ([], st) | x :: xs' => let (r, st1) := f st x in let (rs, st2) := runTests f st1 xs' in (r :: rs, st2) end.
Definition isNoticed {E} (r : option E) : bool := match r with Some _ => true | None => false end.
Definition noticed {E} (r : option E) : Prop := r <> None.
(* the range that is meant: no end or one behind the data is the end of the data, a start outside of the data is 0 *)
Definition rangeOf (l s e : Z) : Z * Z := ((if (0 <=? s) && (s <=? l) then s else 0)%Z, (if (e =? 0) || (l <? e) then l else e)%Z).
Fixpoint positions (s : Z) (n : nat) : list Z := match n with O => [] | S n' => s :: positions (s + 1) n' end.

(* ---- proofs ---- *)
Lemma mask_pow n : n < 8 -> maskOf n = 2 ^ n.
Proof. intros H. assert (D : n = 0 \/ n = 1 \/ n = 2 \/ n = 3 \/ n = 4 \/ n = 5 \/ n = 6 \/ n = 7) by lia. destruct D as [->|[->|[->|[->|[->|[->|[->| ->]]]]]]]; reflexivity. Qed.
Lemma xorAt_length d : forall n m, List.length (xorAt n m d) = List.length d.
Proof. induction d as [|x d IH]; intros [|n] m; cbn [xorAt List.length]; try reflexivity. rewrite IH. reflexivity. Qed.
Lemma xorAt_nth d : forall n m k, (n < List.length d)%nat -> nth k (xorAt n m d) 0 = if (k =? n)%nat then N.lxor (nth k d 0) m else nth k d 0.
Proof.
  induction d as [|x d IH]; intros n m k H; cbn [List.length] in H; [lia|]. destruct n as [|n]; destruct k as [|k]; cbn [xorAt nth Nat.eqb]; try reflexivity.
  apply IH. lia.
Qed.
Lemma switch_flips d pos : (0 <= pos < 8 * Z.of_nat (List.length d))%Z -> exists x, switchBit d pos = Ok x /\ flipped d pos x.
Proof.
  intros H. unfold switchBit.
  assert (Q : (pos / 8 < Z.of_nat (List.length d))%Z) by (apply Z.div_lt_upper_bound; lia).
  assert (Q0 : (0 <= pos / 8)%Z) by (apply Z.div_pos; lia).
  replace ((pos <? 0) || (Z.of_nat (List.length d) <=? pos / 8))%Z with false.
  2: { symmetry. apply Bool.orb_false_iff. split; [apply Z.ltb_ge|apply Z.leb_gt]; lia. }
  eexists. split; [reflexivity|]. split; [apply xorAt_length|]. intros k K. unfold bitAt.
  rewrite xorAt_nth by (apply Nat2Z.inj_lt; rewrite Z2Nat.id by exact Q0; exact Q).
  assert (B1 := Z.mod_pos_bound pos 8 ltac:(lia)). assert (B2 := Z.mod_pos_bound k 8 ltac:(lia)).
  assert (K0 : (0 <= k / 8)%Z) by (apply Z.div_pos; lia).
  assert (E1 := Z.div_mod pos 8 ltac:(lia)). assert (E2 := Z.div_mod k 8 ltac:(lia)).
  rewrite mask_pow by lia.
  destruct (Nat.eqb_spec (Z.to_nat (k / 8)) (Z.to_nat (pos / 8))) as [A|A].
  - rewrite N.lxor_spec, N.pow2_bits_eqb. f_equal. assert (A' : (k / 8 = pos / 8)%Z) by (apply Z2Nat.inj; assumption).
    destruct (Z.eqb_spec k pos) as [->|D]; [apply N.eqb_refl|]. apply N.eqb_neq. intros F. apply D. apply Z2N.inj in F; lia.
  - destruct (Z.eqb_spec k pos) as [->|D]; [congruence|]. rewrite Bool.xorb_false_r. reflexivity.
Qed.
Lemma loop_ok {E St} (f : St -> list N -> option E * St) d : forall n i ec tc st,
  (0 <= i)%Z -> (i + Z.of_nat n <= 8 * Z.of_nat (List.length d))%Z ->
  exists xs, List.length xs = n /\ Forall2 (flipped d) (positions i n) xs /\
    fuzzLoop E St f d n i ec tc st =
    Ok (fst (runTests f st xs), (ec + Z.of_nat (List.length (filter isNoticed (fst (runTests f st xs)))))%Z,
        (tc + Z.of_nat n)%Z, snd (runTests f st xs)).
Proof.
  induction n as [|n IH]; intros i ec tc st I L.
  - exists []. split; [reflexivity|]. split; [constructor|]. cbn. rewrite !Z.add_0_r. reflexivity.
  - destruct (switch_flips d i ltac:(lia)) as (x & S1 & F1). cbn [fuzzLoop]. rewrite S1. cbn [rbind].
    destruct (f st x) as [r st1] eqn:FX.
    destruct (IH (i + 1)%Z (match r with Some _ => (ec + 1)%Z | None => ec end) (tc + 1)%Z st1 ltac:(lia) ltac:(lia)) as (xs & Lx & F2 & R2).
    exists (x :: xs). split; [cbn; rewrite Lx; reflexivity|]. split; [cbn [positions]; constructor; assumption|].
    unfold bytes in *. rewrite R2. cbn [rbind runTests]. rewrite FX. destruct (runTests f st1 xs) as [rs st2]. cbn [fst snd filter].
    f_equal. f_equal. f_equal; [|lia]. f_equal. destruct r; cbn [isNoticed List.length]; lia.
Qed.
Lemma count_all {E} (l : list (option E)) :
  Z.of_nat (List.length l) = Z.of_nat (List.length (filter isNoticed l)) <-> Forall noticed l.
Proof.
  assert (B : forall l : list (option E), (List.length (filter isNoticed l) <= List.length l)%nat).
  { clear. induction l as [|[r|] l IH]; cbn; lia. }
  induction l as [|[r|] l IH]; cbn [filter List.length isNoticed].
  - split; [constructor|reflexivity].
  - split.
    + intros H. apply Forall_cons; [discriminate|]. apply IH. lia.
    + intros H. inversion_clear H as [|? ? _ X]. apply IH in X. lia.
  - split; [specialize (B l); lia|]. intros H. inversion_clear H as [|? ? X _]. exfalso. apply X. reflexivity.
Qed.
Lemma run_length {E St} (f : St -> list N -> option E * St) : forall xs st, List.length (fst (runTests f st xs)) = List.length xs.
Proof. induction xs as [|x xs IH]; intros st; [reflexivity|]. cbn [runTests]. destruct (f st x) as [r st1]. specialize (IH st1). destruct (runTests f st1 xs). cbn in *. lia. Qed.

(* ------------------------------------------------------------------ *)
(* C199.  For data, a test function and a range that is not reversed: the test is run once for every bit of the range, in order,
   on the data with exactly that bit changed; Errors has the answers, the counters are right, and the result is true exactly if every
   change was noticed.  The data stays as it is. *)
Theorem C199 : forall (E St : Type) (f : St -> list N -> option E * St) (z : fuzzer E) st s e,
  fData E z <> [] -> fFunc E z = true -> rangeOf (8 * Z.of_nat (List.length (fData E z))) (fStart E z) (fEnd E z) = (s, e) -> (s <= e)%Z ->
  exists ok z' xs, Fuzz E St f z st = Ok (ok, z', snd (runTests f st xs)) /\
    Forall2 (flipped (fData E z)) (positions s (Z.to_nat (e - s))) xs /\ List.length xs = Z.to_nat (e - s) /\
    fData E z' = fData E z /\ fErrors E z' = fst (runTests f st xs) /\ fTestCount E z' = (e - s)%Z /\
    (ok = true <-> Forall noticed (fst (runTests f st xs))) /\
    fErrorCount E z' = Z.of_nat (List.length (filter isNoticed (fst (runTests f st xs)))) /\ fStart E z' = s /\ fEnd E z' = e.
Proof.
  intros E St f z st s e D F R L. unfold rangeOf in R. apply pair_equal_spec in R as [Rs Re].
  set (l := (8 * Z.of_nat (List.length (fData E z)))%Z) in *.
  assert (L0 : (0 < l)%Z). { unfold l. destruct (fData E z); [congruence|]. cbn [List.length]. lia. }
  assert (S0 : (0 <= s)%Z). { rewrite <- Rs. destruct ((0 <=? fStart E z) && (fStart E z <=? l))%Z eqn:B; [|lia]. apply andb_prop in B as [B _]. apply Z.leb_le in B. exact B. }
  assert (E0 : (e <= l)%Z). { rewrite <- Re. destruct ((fEnd E z =? 0) || (l <? fEnd E z))%Z eqn:B; [lia|]. apply Bool.orb_false_iff in B as [_ B]. apply Z.ltb_ge in B. exact B. }
  destruct (loop_ok f (fData E z) (Z.to_nat (e - s)) s 0 0 st S0 ltac:(fold l; lia)) as (xs & Lx & FX & RX).
  eexists _, _, xs. split.
  - unfold Fuzz. rewrite F. replace (match fData E z with [] => true | _ => false end) with false by (destruct (fData E z); [congruence|reflexivity]).
    cbn [orb negb]. replace (Z.of_nat (List.length (fData E z)) * 8)%Z with l by (unfold l; lia). cbv zeta.
    replace (if ((l <? fEnd E z) || (fEnd E z =? 0))%Z then l else fEnd E z) with e by (rewrite <- Re, Bool.orb_comm; reflexivity).
    replace (if ((fStart E z <? 0) || (l <? fStart E z))%Z then 0%Z else fStart E z) with s.
    2: { rewrite <- Rs. destruct (Z.leb_spec 0 (fStart E z)), (Z.leb_spec (fStart E z) l), (Z.ltb_spec (fStart E z) 0), (Z.ltb_spec l (fStart E z)); cbn; lia. }
    replace (e - s <? 0)%Z with false by (symmetry; apply Z.ltb_ge; lia). unfold bytes in *. rewrite RX. cbn [rbind]. reflexivity.
  - split; [exact FX|]. split; [exact Lx|]. cbn [fData fErrors fTestCount fErrorCount fStart fEnd]. split; [reflexivity|]. split; [reflexivity|].
    split; [rewrite Z2Nat.id by lia; lia|].
    rewrite !Z.add_0_l. rewrite <- count_all, run_length, Lx. rewrite Z.eqb_eq. repeat split; tauto.
Qed.
(* it crashes exactly if there is no data, no test, or the range is reversed *)
Theorem C199_panic : forall (E St : Type) (f : St -> list N -> option E * St) (z : fuzzer E) st,
  Fuzz E St f z st = Panic <-> fData E z = [] \/ fFunc E z = false \/
    (let (s, e) := rangeOf (8 * Z.of_nat (List.length (fData E z))) (fStart E z) (fEnd E z) in (e < s)%Z).
Proof.
  intros E St f z st. destruct (rangeOf (8 * Z.of_nat (List.length (fData E z))) (fStart E z) (fEnd E z)) as [s e] eqn:R.
  destruct (fData E z) as [|b d] eqn:D; [unfold Fuzz; rewrite D; split; [left; reflexivity|reflexivity]|]. rewrite <- D in *.
  assert (DN : fData E z <> []) by (rewrite D; discriminate).
  destruct (fFunc E z) eqn:F.
  2: { unfold Fuzz. rewrite F, D. split; [right; left; reflexivity|reflexivity]. }
  destruct (Z.le_gt_cases s e) as [L|L].
  - destruct (C199 E St f z st s e DN F R L) as (ok & z' & xs & X & _). rewrite X. split; [discriminate|]. intros [H|[H|H]]; [congruence|discriminate H|lia].
  - split; [intros _; right; right; exact L|]. intros _. unfold Fuzz. rewrite F.
    replace (match fData E z with [] => true | _ => false end) with false by (rewrite D; reflexivity). cbn [orb negb].
    unfold rangeOf in R. apply pair_equal_spec in R as [Rs Re]. set (l := (8 * Z.of_nat (List.length (fData E z)))%Z) in *.
    replace (Z.of_nat (List.length (fData E z)) * 8)%Z with l by (unfold l; lia). cbv zeta.
    replace (if ((l <? fEnd E z) || (fEnd E z =? 0))%Z then l else fEnd E z) with e by (rewrite <- Re, Bool.orb_comm; reflexivity).
    replace (if ((fStart E z <? 0) || (l <? fStart E z))%Z then 0%Z else fStart E z) with s.
    2: { rewrite <- Rs. destruct (Z.leb_spec 0 (fStart E z)), (Z.leb_spec (fStart E z) l), (Z.ltb_spec (fStart E z) 0), (Z.ltb_spec l (fStart E z)); cbn; lia. }
    replace (e - s <? 0)%Z with true by (symmetry; apply Z.ltb_lt; lia). reflexivity.
Qed.
(* a test that compares with the data notices every change; one that looks only at the first byte does not *)
Definition exFuzz : fuzzer unit := mkFuzzer unit [7; 255; 0] 0 0 [] 5 5 true.
Example C199_ex : fData unit exFuzz <> [] /\ fFunc unit exFuzz = true /\ rangeOf 24 (fStart unit exFuzz) (fEnd unit exFuzz) = (0, 24)%Z /\
  (exists z st, Fuzz unit N (fun n x => (if beq x [7; 255; 0] then None else Some tt, n + 1)) exFuzz 0 = Ok (true, z, st) /\ st = 24 /\ fErrorCount unit z = 24%Z) /\
  (exists z st, Fuzz unit N (fun n x => (if hd 0 x =? 7 then None else Some tt, n + 1)) exFuzz 0 = Ok (false, z, st) /\ fErrorCount unit z = 8%Z).
Proof.
  split; [discriminate|]. split; [reflexivity|]. split; [reflexivity|].
  split; (eexists; eexists; split; [vm_compute; reflexivity|repeat split]).
Qed.

Print Assumptions C199.
Print Assumptions C199_panic.
