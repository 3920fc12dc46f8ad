(* UTF-8 as in Go's unicode/utf8 package (library behaviour, not in /repo; used by tui/textbuffer/textbuffer.go:87-121, 236-254). *)
From Verif Require Import Base.
Local Open Scope N_scope.

Definition runeError : N := 65533.
Definition contB (b : N) : bool := (128 <=? b) && (b <=? 191).
(* Unicode scalar values: what utf8.ValidRune accepts *)
Definition scalar (r : N) : bool := (r <? 55296) || ((57344 <=? r) && (r <=? 1114111)).
(* utf8.EncodeRune *)
Definition encodeRune (r : N) : bytes :=
  if r <? 128 then [r]
  else if r <? 2048 then [192 + r / 64; 128 + r mod 64]
  else if negb (scalar r) then [239; 191; 189]
  else if r <? 65536 then [224 + r / 4096; 128 + (r / 64) mod 64; 128 + r mod 64]
  else [240 + r / 262144; 128 + (r / 4096) mod 64; 128 + (r / 64) mod 64; 128 + r mod 64].
(* utf8.DecodeRune on a non-empty slice with first byte [a]: the rune and the rest after its bytes (one byte if invalid) *)
Definition decodeRune (a : N) (s : bytes) : N * bytes :=
  if a <? 128 then (a, s)
  else if a <? 194 then (runeError, s)
  else if a <? 224 then
    match s with
    | b :: s' => if contB b then ((a - 192) * 64 + (b - 128), s') else (runeError, s)
    | _ => (runeError, s)
    end
  else if a <? 240 then
    match s with
    | b :: c :: s' =>
      if contB b && contB c && negb ((a =? 224) && (b <? 160)) && negb ((a =? 237) && (159 <? b))
      then ((a - 224) * 4096 + (b - 128) * 64 + (c - 128), s') else (runeError, s)
    | _ => (runeError, s)
    end
  else if a <? 245 then
    match s with
    | b :: c :: d :: s' =>
      if contB b && contB c && contB d && negb ((a =? 240) && (b <? 144)) && negb ((a =? 244) && (143 <? b))
      then ((a - 240) * 262144 + (b - 128) * 4096 + (c - 128) * 64 + (d - 128), s') else (runeError, s)
    | _ => (runeError, s)
    end
  else (runeError, s).
Fixpoint runesF (f : nat) (s : bytes) : list N :=
  match f, s with
  | S f', a :: r => let (c, r') := decodeRune a r in c :: runesF f' r'
  | _, _ => []
  end.
Definition runes (s : bytes) : list N := runesF (length s) s.
Definition encodeAll (rs : list N) : bytes := concat (map encodeRune rs).

Lemma decode_encode r rest : scalar r = true -> exists a t, encodeRune r ++ rest = a :: t /\ decodeRune a t = (r, rest).
Proof.
  intros V. unfold encodeRune. destruct (N.ltb_spec r 128) as [|L1].
  { exists r, rest. split; [reflexivity|]. unfold decodeRune. destruct (N.ltb_spec r 128); [reflexivity|lia]. }
  assert (M : forall x, x mod 64 < 64) by (intros x; apply N.mod_lt; discriminate).
  destruct (N.ltb_spec r 2048) as [|L2].
  { eexists _, _. split; [reflexivity|]. unfold decodeRune. assert (D : 2 <= r / 64 < 32) by lia. pose proof (M r) as M1.
    destruct (N.ltb_spec (192 + r / 64) 128); [lia|]. destruct (N.ltb_spec (192 + r / 64) 194); [lia|]. destruct (N.ltb_spec (192 + r / 64) 224); [|lia].
    assert (CB : contB (128 + r mod 64) = true) by (unfold contB; apply andb_true_iff; split; apply N.leb_le; lia). rewrite CB. f_equal. pose proof (N.div_mod r 64). lia. }
  rewrite V. cbn [negb]. unfold scalar in V. apply orb_true_iff in V.
  assert (CM : forall x, contB (128 + x mod 64) = true) by (intros x; pose proof (M x); unfold contB; apply andb_true_iff; split; apply N.leb_le; lia).
  destruct (N.ltb_spec r 65536) as [|L3].
  { eexists _, _. split; [reflexivity|]. unfold decodeRune. set (q := r / 64). assert (Q : r / 4096 = q / 64) by (unfold q; rewrite N.div_div by discriminate; reflexivity). rewrite Q.
    pose proof (N.div_mod r 64 ltac:(discriminate)) as E1. pose proof (N.div_mod q 64 ltac:(discriminate)) as E2. fold q in E1. pose proof (M r) as M1. pose proof (M q) as M2. set (h := q / 64) in *. set (m := q mod 64) in *. set (l := r mod 64) in *.
    assert (HH : h < 16) by lia.
    destruct (N.ltb_spec (224 + h) 128); [lia|]. destruct (N.ltb_spec (224 + h) 194); [lia|]. destruct (N.ltb_spec (224 + h) 224); [lia|]. destruct (N.ltb_spec (224 + h) 240); [|lia].
    assert (C1 : contB (128 + m) = true) by apply CM. assert (C2 : contB (128 + l) = true) by apply CM. rewrite C1, C2.
    assert (G1 : (224 + h =? 224) && (128 + m <? 160) = false). { destruct (N.eqb_spec (224 + h) 224); [|reflexivity]. destruct (N.ltb_spec (128 + m) 160); [lia|reflexivity]. }
    assert (G2 : (224 + h =? 237) && (159 <? 128 + m) = false). { destruct (N.eqb_spec (224 + h) 237); [|reflexivity]. destruct (N.ltb_spec 159 (128 + m)); [|reflexivity]. destruct V as [V|V]; [apply N.ltb_lt in V; lia|apply andb_true_iff in V as [V _]; apply N.leb_le in V; lia]. }
    rewrite G1, G2. cbn [andb negb]. f_equal. lia. }
  eexists _, _. split; [reflexivity|]. unfold decodeRune. assert (R : r <= 1114111). { destruct V as [V|V]; [apply N.ltb_lt in V; lia|apply andb_true_iff in V as [_ V]; apply N.leb_le in V; lia]. }
  set (q := r / 64). assert (Q : r / 4096 = q / 64) by (unfold q; rewrite N.div_div by discriminate; reflexivity). rewrite Q. set (p := q / 64) in *. assert (P : r / 262144 = p / 64) by (unfold p, q; rewrite !N.div_div by discriminate; reflexivity). rewrite P.
  pose proof (N.div_mod r 64 ltac:(discriminate)) as E1. pose proof (N.div_mod q 64 ltac:(discriminate)) as E2. pose proof (N.div_mod p 64 ltac:(discriminate)) as E3. fold q in E1. fold p in E2. pose proof (CM r) as C1. pose proof (CM q) as C2. pose proof (CM p) as C3. pose proof (M r) as M1. pose proof (M q) as M2. pose proof (M p) as M3.
  set (h := p / 64) in *. set (m := p mod 64) in *. set (k := q mod 64) in *. set (l := r mod 64) in *. clearbody l k m h. clear Q P CM M.
  assert (HH : h <= 4) by lia.
  destruct (N.ltb_spec (240 + h) 128); [lia|]. destruct (N.ltb_spec (240 + h) 194); [lia|]. destruct (N.ltb_spec (240 + h) 224); [lia|]. destruct (N.ltb_spec (240 + h) 240); [lia|]. destruct (N.ltb_spec (240 + h) 245); [|lia]. rewrite C1, C2, C3.
  assert (G1 : (240 + h =? 240) && (128 + m <? 144) = false). { destruct (N.eqb_spec (240 + h) 240); [|reflexivity]. destruct (N.ltb_spec (128 + m) 144); [lia|reflexivity]. }
  assert (G2 : (240 + h =? 244) && (143 <? 128 + m) = false). { destruct (N.eqb_spec (240 + h) 244); [|reflexivity]. destruct (N.ltb_spec 143 (128 + m)); [lia|reflexivity]. }
  rewrite G1, G2. cbn [andb negb]. f_equal. lia.
Qed.
Lemma contB_range b : contB b = true -> 128 <= b <= 191.
Proof. unfold contB. intros E. apply andb_true_iff in E as [A B]. apply N.leb_le in A, B. lia. Qed.
Lemma decode_scalar a s c r : decodeRune a s = (c, r) -> scalar c = true.
Proof.
  intros E. assert (RE : forall x, (runeError, x) = (c, r) -> scalar c = true) by (intros x Q; injection Q as <- _; reflexivity).
  assert (LO : forall x, x < 55296 -> scalar x = true) by (intros x L; unfold scalar; apply orb_true_iff; left; apply N.ltb_lt; exact L).
  assert (HI : forall x, 57344 <= x <= 1114111 -> scalar x = true) by (intros x L; unfold scalar; apply orb_true_iff; right; apply andb_true_iff; split; apply N.leb_le; lia).
  unfold decodeRune in E. destruct (N.ltb_spec a 128); [injection E as <- _; apply LO; lia|]. destruct (N.ltb_spec a 194); [eauto|]. destruct (N.ltb_spec a 224).
  { destruct s as [|b s]; [eauto|]. destruct (contB b) eqn:CB; [|eauto]. apply contB_range in CB. injection E as <- _. apply LO. lia. }
  destruct (N.ltb_spec a 240).
  { destruct s as [|b [|d s]]; [eauto|eauto|]. destruct (contB b && contB d && negb ((a =? 224) && (b <? 160)) && negb ((a =? 237) && (159 <? b))) eqn:Q; [|eauto]. apply andb_true_iff in Q as [Q Q4]. apply andb_true_iff in Q as [Q Q3]. apply andb_true_iff in Q as [Q1 Q2]. apply contB_range in Q1, Q2.
    injection E as <- _. destruct (N.leb_spec a 236); [apply LO; lia|]. destruct (N.eqb_spec a 237) as [->|]; [|apply HI; lia]. apply LO. cbn [andb] in Q4. destruct (N.ltb_spec 159 b); [discriminate|]. lia. }
  destruct (N.ltb_spec a 245); [|eauto]. destruct s as [|b [|d [|e s]]]; [eauto|eauto|eauto|]. destruct (contB b && contB d && contB e && negb ((a =? 240) && (b <? 144)) && negb ((a =? 244) && (143 <? b))) eqn:Q; [|eauto]. apply andb_true_iff in Q as [Q Q5]. apply andb_true_iff in Q as [Q Q4]. apply andb_true_iff in Q as [Q Q3]. apply andb_true_iff in Q as [Q1 Q2]. apply contB_range in Q1, Q2, Q3.
  injection E as <- _. apply HI. destruct (N.eqb_spec a 240) as [->|]; [cbn [andb] in Q4; destruct (N.ltb_spec b 144); [discriminate|]; lia|]. destruct (N.eqb_spec a 244) as [->|]; [|lia]. cbn [andb] in Q5. destruct (N.ltb_spec 143 b); [discriminate|]. lia.
Qed.
Lemma decode_length a s c r : decodeRune a s = (c, r) -> (length r <= length s)%nat.
Proof.
  unfold decodeRune. intros E. destruct (a <? 128); [injection E as _ <-; lia|]. destruct (a <? 194); [injection E as _ <-; lia|]. destruct (a <? 224); [destruct s as [|b s]; [|destruct (contB b)]; injection E as _ <-; cbn [length]; lia|].
  destruct (a <? 240); [destruct s as [|b [|d s]]; [| |destruct (_ && _ && _ && _)]; injection E as _ <-; cbn [length]; lia|]. destruct (a <? 245); [|injection E as _ <-; lia]. destruct s as [|b [|d [|e s]]]; [| | |destruct (_ && _ && _ && _ && _)]; injection E as _ <-; cbn [length]; lia.
Qed.
Lemma runes_scalar f s : Forall (fun r => scalar r = true) (runesF f s).
Proof.
  revert s. induction f as [|f IH]; intros s; [constructor|]. destruct s as [|a s]; [constructor|]. cbn [runesF]. destruct (decodeRune a s) as [c r] eqn:D. constructor; [exact (decode_scalar _ _ _ _ D)|apply IH].
Qed.
Lemma runesF_more f g s : (length s <= f)%nat -> (length s <= g)%nat -> runesF f s = runesF g s.
Proof.
  revert g s. induction f as [|f IH]; intros g s L1 L2; [destruct s; [destruct g; reflexivity|cbn [length] in L1; lia]|]. destruct s as [|a s]; [destruct g; reflexivity|]. destruct g as [|g]; [cbn [length] in L2; lia|]. cbn [runesF]. destruct (decodeRune a s) as [c r] eqn:D. apply decode_length in D. cbn [length] in L1, L2. f_equal. apply IH; lia.
Qed.
Lemma encodeRune_pos r : (1 <= length (encodeRune r))%nat.
Proof. unfold encodeRune. destruct (_ <? _); [cbn; lia|]. destruct (_ <? _); [cbn; lia|]. destruct (negb _); [cbn; lia|]. destruct (_ <? _); cbn; lia. Qed.
Lemma runes_encode rs : Forall (fun r => scalar r = true) rs -> runes (encodeAll rs) = rs.
Proof.
  unfold runes. intros F. cut (forall f, (length (encodeAll rs) <= f)%nat -> runesF f (encodeAll rs) = rs); [intros Q; apply Q; lia|]. induction F as [|r rs V F IH]; intros f L; [destruct f; reflexivity|].
  change (encodeAll (r :: rs)) with (encodeRune r ++ encodeAll rs) in *. destruct (decode_encode r (encodeAll rs) V) as (a & t & E & D). pose proof (encodeRune_pos r) as P. rewrite app_length in L. assert (LT : (length (encodeRune r ++ encodeAll rs) = S (length t))%nat) by (rewrite E; reflexivity). rewrite app_length in LT. rewrite E.
  destruct f as [|f]; [lia|]. cbn [runesF]. rewrite D. f_equal. apply IH. lia.
Qed.
Lemma encode_no10 r : scalar r = true -> r <> 10 -> ~ In 10 (encodeRune r).
Proof.
  intros V NE I. unfold encodeRune in I. destruct (N.ltb_spec r 128); [destruct I as [I|[]]; congruence|]. destruct (r <? 2048); [cbn in I; destruct I as [I|[I|[]]]; lia|]. destruct (negb _); [cbn in I; destruct I as [I|[I|[I|[]]]]; discriminate|]. destruct (r <? 65536); cbn in I; [destruct I as [I|[I|[I|[]]]]; lia|destruct I as [I|[I|[I|[I|[]]]]]; lia].
Qed.
