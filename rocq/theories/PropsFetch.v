(* Properties of ctrlengine: fetching (C33). *)
From Verif Require Import Base Base64Model CodecModel IdentityModel IdentityProofs SqlModel SqlProofs Maps
  MsgDBModel MsgDBProofs MsgDBQueue MsgDBView MsgDBSpec MsgDBSteps PropsMsgDB CryptoModel MixModel MixClientModel CtrlModel.
From Coq Require Import Sorting.Sorted.
Local Open Scope N_scope.

(* a message on the server: ID, contents, time of receipt *)
Definition srvMsg := (bytes * bytes * Z)%type.
Definition sId (x : srvMsg) : bytes := fst (fst x).
(* the row it becomes in the in-queue of the account k *)
Definition entry (k : N * N) (x : srvMsg) : iqRow := mkIq (fst k) (snd k) (snd x) (snd (fst x)) true.

Lemma since_app h s t : In h s -> since h (s ++ t) = since h s ++ t.
Proof.
  induction s as [|y s IH]; [intros []|]. intros I. cbn [app since]. destruct (beq y h) eqn:B; [reflexivity|]. apply IH.
  destruct I as [->|I]; [rewrite beq_refl in B; discriminate|exact I].
Qed.
Lemma since_In h s : In h s -> In h (since h s).
Proof. intros I. destruct (C32_since h s I) as (p & q & _ & _ & ->). left. reflexivity. Qed.
Lemma since_incl h s : incl (since h s) s.
Proof. induction s as [|y s IH]; [apply incl_refl|]. cbn [since]. destruct (beq y h); [apply incl_refl|apply incl_tl; exact IH]. Qed.
Lemma existsb_cache x (l : list bytes) : existsb (beq x) l = true <-> In x l.
Proof.
  rewrite existsb_exists. split.
  - intros (y & I & B). apply beq_spec in B as ->. exact I.
  - intros I. exists x. split; [exact I|apply beq_refl].
Qed.

Section Fetch.
  Variable U : Unicode.
  Variables my c : bytes.
  Variable k : N * N.

  Lemma pair_keep o db db' : Inv U db -> pairIDs U my c db = Ok k -> o <> DDelNym my -> dexec U o db = Ok db' -> pairIDs U my c db' = Ok k.
  Proof. intros V P N E. apply pairIDs_ckey in P as (A & B & C). apply pairIDs_ckey. split; [exact A|]. split; [exact B|]. eapply key_keep; eassumption. Qed.
  Lemma getCache_of db : pairIDs U my c db = Ok k -> getCache U my c db = Ok (cacheOf my c db).
  Proof. intros P. unfold getCache. rewrite P. destruct k as [a b]. cbn [rbind]. apply pairIDs_ckey in P as (_ & _ & C). unfold cacheOf. rewrite C. reflexivity. Qed.
  Lemma addCache_ok db x : pairIDs U my c db = Ok k -> x <> [] -> exists db', dexec U (DAddCache my c x) db = Ok db' /\ dbIn db' = dbIn db.
  Proof.
    intros P X. cbn [dexec]. unfold addCache. pose proof P as P0. apply pairIDs_ckey in P as (A & B & C). rewrite A, B, P0. destruct x; [congruence|]. destruct k as [a b]. cbn [isNil negb need rbind]. eexists. split; reflexivity.
  Qed.
  Lemma addIn_ok db t m : pairIDs U my c db = Ok k -> exists db', dexec U (DAddInQueue my c t m) db = Ok db' /\ dbIn db' = tins (mkIq (fst k) (snd k) t m true) (dbIn db).
  Proof. intros P. cbn [dexec]. unfold addInQueue. rewrite P. destruct k as [a b]. cbn [rbind fst snd]. eexists. split; reflexivity. Qed.
  Lemma remCache_ok db x : pairIDs U my c db = Ok k -> x <> [] -> In x (cacheOf my c db) -> exists db', dexec U (DRemoveCache my c x) db = Ok db' /\ dbIn db' = dbIn db.
  Proof.
    intros P X I. cbn [dexec]. unfold removeCache. pose proof P as P0. apply pairIDs_ckey in P as (A & B & C). rewrite A, B, P0. unfold cacheOf in I. rewrite C in I.
    destruct x; [congruence|]. destruct k as [a b]. cbn [isNil negb need rbind]. destruct (tmin _ (dbIds db)) as [[e r]|] eqn:T; [eexists; split; reflexivity|].
    exfalso. unfold cacheRows in I. apply in_map_iff in I as [[e r] [E I]]. apply In_tsel in I as [I Q]. pose proof (tmin_none _ _ T _ I) as Z. cbn [fst snd] in *. rewrite Q, E, beq_refl in Z. discriminate.
  Qed.
  Lemma snd_tins {A} (a : A) t : map snd (tins a t) = map snd t ++ [a].
  Proof. unfold tins. rewrite map_app. reflexivity. Qed.

  (* The loop on a listing: new messages, then what is left of the known ones.  With b writes before the
     interruption, b/2 messages are stored and (b+1)/2 are marked as known. *)
  Lemma fetchLoop_spec cache rest : (match rest with [] => True | h :: _ => In (sId h) cache /\ sId h <> [] end) -> forall batch b nt db, Inv U db -> pairIDs U my c db = Ok k ->
    (match rest with [] => True | h :: _ => In (sId h) (cacheOf my c db) end) ->
    Forall (fun x => ~ In (sId x) cache /\ sId x <> []) batch ->
    exists db' r, fetchLoop U my c cache (batch ++ rest) b nt db = (db', r) /\ Inv U db' /\ pairIDs U my c db' = Ok k /\
      map snd (dbIn db') = map snd (dbIn db) ++ map (entry k) (firstn (Nat.div2 b) batch) /\
      (let added := map sId (firstn (Nat.div2 (Datatypes.S b)) batch) in
       cacheOf my c db' = cacheOf my c db ++ added \/ match rest with h :: _ => cacheOf my c db' = since (sId h) (cacheOf my c db ++ added) | [] => False end) /\
      ((2 * length batch + 1 <= b)%nat -> r <> None).
  Proof.
    intros HR. induction batch as [|x batch IH]; intros b nt db V P HD F.
    - cbn [app]. rewrite !firstn_nil. cbn [map]. destruct rest as [|[[h m] t] rest].
      + exists db. eexists. split; [reflexivity|]. split; [exact V|]. split; [exact P|]. rewrite !app_nil_r. split; [reflexivity|]. split; [left; reflexivity|discriminate].
      + cbn [fetchLoop]. change (sId (h, m, t)) with h in *. destruct HR as [HR HN]. rewrite (proj2 (existsb_cache h cache) HR).
        destruct b as [|b].
        * exists db. eexists. split; [reflexivity|]. split; [exact V|]. split; [exact P|]. rewrite !app_nil_r. split; [reflexivity|]. split; [left; reflexivity|]. cbn [length]. lia.
        * destruct (remCache_ok db h P HN HD) as (db' & E & EI). rewrite E. exists db'. eexists. split; [reflexivity|].
          split; [eapply Inv_dexec; eassumption|]. split; [eapply pair_keep; [exact V|exact P| |exact E]; discriminate|]. rewrite !app_nil_r, EI. split; [reflexivity|]. split; [|discriminate].
          right. rewrite (cache_dexec U _ _ _ my c V E). cbn [cacheSpec]. rewrite !beq_refl. reflexivity.
    - inversion_clear F as [|? ? [NC NE] F']. destruct x as [[id m] t]. change (sId (id, m, t)) with id in *. cbn [app fetchLoop].
      assert (EX : existsb (beq id) cache = false) by (destruct (existsb (beq id) cache) eqn:Z; [apply existsb_cache in Z; contradiction|reflexivity]). rewrite EX.
      destruct b as [|[|b]].
      + exists db. eexists. split; [reflexivity|]. split; [exact V|]. split; [exact P|]. cbn [Nat.div2 firstn map]. rewrite !app_nil_r. split; [reflexivity|]. split; [left; reflexivity|]. cbn [length]. lia.
      + destruct (addCache_ok db id P NE) as (db1 & E1 & EI). rewrite E1. exists db1. eexists. split; [reflexivity|].
        split; [eapply Inv_dexec; eassumption|]. split; [eapply pair_keep; [exact V|exact P| |exact E1]; discriminate|]. cbn [Nat.div2 firstn map]. rewrite app_nil_r, EI. split; [reflexivity|]. split; [|cbn [length]; lia].
        left. rewrite (cache_dexec U _ _ _ my c V E1). cbn [cacheSpec]. rewrite !beq_refl. reflexivity.
      + destruct (addCache_ok db id P NE) as (db1 & E1 & EI1). rewrite E1. pose proof (Inv_dexec _ _ _ _ V E1) as V1.
        assert (P1 : pairIDs U my c db1 = Ok k) by (eapply pair_keep; [exact V|exact P| |exact E1]; discriminate).
        destruct (addIn_ok db1 t m P1) as (db2 & E2 & EI2). rewrite E2. pose proof (Inv_dexec _ _ _ _ V1 E2) as V2.
        assert (P2 : pairIDs U my c db2 = Ok k) by (eapply pair_keep; [exact V1|exact P1| |exact E2]; discriminate).
        assert (C2 : cacheOf my c db2 = cacheOf my c db ++ [id]).
        { rewrite (cache_dexec U _ _ _ my c V1 E2), (cache_dexec U _ _ _ my c V E1). cbn [cacheSpec]. rewrite !beq_refl. reflexivity. }
        destruct (IH b (Some (match nt with Some t' => t' | None => t end)) db2 V2 P2) as (db' & r & E & V' & P' & DI & DC & DR); [|exact F'|].
        { destruct rest as [|h rest]; [exact I|]. rewrite C2. apply in_or_app. left. exact HD. }
        rewrite E. exists db', r. split; [reflexivity|]. split; [exact V'|]. split; [exact P'|]. split; [|split].
        * rewrite DI, EI2, EI1, snd_tins, <- app_assoc. cbn [Nat.div2 firstn map app]. reflexivity.
        * cbn [Nat.div2] in *. change (Nat.div2 (Datatypes.S (Datatypes.S (Datatypes.S b)))) with (Datatypes.S (Nat.div2 (Datatypes.S b))). cbn [firstn map]. change (sId (id, m, t)) with id.
          rewrite C2, <- app_assoc in DC. exact DC.
        * intros L. apply DR. cbn [length] in L. lia.
  Qed.

  (* What is known of the server: S, newest first; the newest one is marked as known. *)
  Definition FI (S : list srvMsg) (db : msgdb) : Prop :=
    Inv U db /\ pairIDs U my c db = Ok k /\ incl (cacheOf my c db) (map sId S) /\ match S with [] => True | h :: _ => In (sId h) (cacheOf my c db) end.
  Definition fresh (S batch : list srvMsg) : Prop := Forall (fun x => ~ In (sId x) (map sId S) /\ sId x <> []) batch.
  Definition named (S : list srvMsg) : Prop := Forall (fun x => sId x <> []) S.

  Lemma fetch_spec S batch n b db : FI S db -> named S -> fresh S batch ->
    exists db' r, muteprotoFetch U my c (batch ++ firstn n S) b db = (db', r) /\
      map snd (dbIn db') = map snd (dbIn db) ++ map (entry k) (firstn (Nat.div2 b) batch) /\
      ((batch = [] \/ (1 <= b)%nat) -> FI (batch ++ S) db') /\ ((2 * length batch + 1 <= b)%nat -> r <> None).
  Proof.
    intros (V & P & IC & HC) NS FB. unfold muteprotoFetch. rewrite (getCache_of db P).
    assert (HH : match firstn n S with [] => True | h :: _ => In (sId h) (cacheOf my c db) /\ sId h <> [] end).
    { destruct S as [|h S]; [rewrite firstn_nil; exact I|]. destruct n; [exact I|]. cbn [firstn]. split; [exact HC|]. inversion NS; assumption. }
    destruct (fetchLoop_spec (cacheOf my c db) (firstn n S) HH batch b None db V P) as (db' & r & E & V' & P' & DI & DC & DR).
    - destruct (firstn n S); [exact I|apply HH].
    - unfold fresh in FB. rewrite Forall_forall in *. intros x J. destruct (FB x J) as [A B]. split; [|exact B]. intros X. apply A, IC, X.
    - exists db', r. split; [exact E|]. split; [exact DI|]. split; [|exact DR]. intros HB.
      split; [exact V'|]. split; [exact P'|]. cbv zeta in DC. set (added := map sId (firstn (Nat.div2 (Datatypes.S b)) batch)) in *.
      assert (AI : incl added (map sId batch)).
      { unfold added. intros y Y. apply in_map_iff in Y as (z & <- & Z). apply in_map. rewrite <- (firstn_skipn (Nat.div2 (Datatypes.S b)) batch). apply in_or_app. left. exact Z. }
      assert (CI : incl (cacheOf my c db') (cacheOf my c db ++ added)).
      { destruct DC as [->|DC]; [apply incl_refl|]. destruct (firstn n S); [contradiction|]. rewrite DC. apply since_incl. }
      split.
      + intros y Y. apply CI, in_app_or in Y. rewrite map_app. apply in_or_app. destruct Y as [Y|Y]; [right; apply IC, Y|left; apply AI, Y].
      + destruct batch as [|x batch]; cbn [app].
        * destruct S as [|h S]; [exact I|]. destruct n as [|n]; cbn [firstn] in *.
          -- destruct DC as [->|[]]. apply in_or_app. left. exact HC.
          -- destruct DC as [-> | ->]; [apply in_or_app; left; exact HC|]. apply since_In, in_or_app. left. exact HC.
        * destruct HB as [HB|HB]; [discriminate|].
          assert (AX : In (sId x) added) by (unfold added; destruct b; [lia|]; cbn [Nat.div2 firstn map]; left; reflexivity).
          destruct DC as [-> | DC]; [apply in_or_app; right; exact AX|]. destruct (firstn n S) as [|h l]; [contradiction|]. rewrite DC, since_app by apply HH. apply in_or_app. right. exact AX.
  Qed.

  (* Rounds: the user does something (not with this account's marks), new messages arrive, and a fetch runs to its end; the server
     lists the new messages and some of the previous ones, newest first. *)
  Definition leaves (o : dop) : Prop :=
    match o with DAddCache m' c' _ | DRemoveCache m' c' _ => m' <> my \/ c' <> c | DDelNym m' => m' <> my | _ => True end.
  Definition round := (list dop * list srvMsg * nat)%type.
  (* the rows a step added to the in-queue *)
  Definition stored (db db' : msgdb) : list iqRow := skipn (length (dbIn db)) (map snd (dbIn db')).
  Fixpoint rounds (S : list srvMsg) (rs : list round) (db : msgdb) : list iqRow :=
    match rs with
    | [] => []
    | (ops, batch, n) :: rs' =>
      let db1 := drun U ops db in
      let listing := batch ++ firstn n S in
      let db2 := fst (muteprotoFetch U my c listing (2 * length listing + 1) db1) in
      stored db1 db2 ++ rounds (batch ++ S) rs' db2
    end.
  Fixpoint okRounds (S : list srvMsg) (rs : list round) : Prop :=
    match rs with [] => True | (ops, batch, _) :: rs' => Forall leaves ops /\ fresh S batch /\ okRounds (batch ++ S) rs' end.
  Lemma FI_ops ops : forall S db, FI S db -> Forall leaves ops -> FI S (drun U ops db).
  Proof.
    induction ops as [|o ops IH]; intros S db H F; [exact H|]. inversion_clear F as [|? ? L F']. cbn [drun fold_left]. fold (drun U ops (dstep U db o)). apply IH; [|exact F'].
    unfold dstep. destruct (dexec U o db) as [db'| |] eqn:E; [|exact H|exact H]. destruct H as (V & P & IC & HC).
    assert (CE : cacheOf my c db' = cacheOf my c db).
    { rewrite (cache_dexec U _ _ _ my c V E). destruct o; cbn [cacheSpec leaves] in *; try reflexivity.
      - destruct (beq mappedID my) eqn:B; [apply beq_spec in B; contradiction|reflexivity].
      - destruct (beq myID my) eqn:B1, (beq contactID c) eqn:B2; cbn [andb]; try reflexivity. apply beq_spec in B1, B2. tauto.
      - destruct (beq myID my) eqn:B1, (beq contactID c) eqn:B2; cbn [andb]; try reflexivity. apply beq_spec in B1, B2. tauto. }
    split; [eapply Inv_dexec; eassumption|]. split; [eapply pair_keep; [exact V|exact P| |exact E]|rewrite CE; auto]. intros ->. cbn in L. contradiction.
  Qed.
  Lemma skipn_app_len {A B} (l : list A) (l1 l2 : list B) : length l = length l1 -> skipn (length l) (l1 ++ l2) = l2.
  Proof. intros ->. rewrite skipn_app, skipn_all, Nat.sub_diag. reflexivity. Qed.
  Lemma rounds_spec : forall rs S db, FI S db -> named S -> okRounds S rs ->
    rounds S rs db = map (entry k) (concat (map (fun r => snd (fst r)) rs)).
  Proof.
    induction rs as [|[[ops batch] n] rs IH]; intros S db H NS OK; [reflexivity|]. destruct OK as (L & FB & OK). cbn [rounds map concat fst snd]. cbv zeta.
    destruct (fetch_spec S batch n (2 * length (batch ++ firstn n S) + 1) (drun U ops db) (FI_ops _ _ _ H L) NS FB) as (db' & r & E & DI & H' & _). rewrite E. cbn [fst].
    rewrite map_app. f_equal.
    - unfold stored. rewrite DI, skipn_app_len by (rewrite map_length; reflexivity). f_equal. apply firstn_all2.
      rewrite app_length. replace (2 * (length batch + length (firstn n S)) + 1)%nat with (Datatypes.S (2 * (length batch + length (firstn n S)))) by lia.
      rewrite Nat.div2_succ_double. lia.
    - apply IH; [apply H'; right; lia| |exact OK]. unfold named. apply Forall_app. split; [|exact NS]. eapply Forall_impl; [|exact FB]. cbn. tauto.
  Qed.
End Fetch.

(* Uninterrupted fetching stores every message exactly once, in the order of the listings: for all histories before, all numbers of
   rounds and all arrivals.  Missing for the full claim: interruptions (refuted below). *)
Theorem C33_complete_partial : forall U my c k ops rs, let db := drun U ops emptyDB in
  pairIDs U my c db = Ok k -> cacheOf my c db = [] -> okRounds my c [] rs ->
  rounds U my c [] rs db = map (entry k) (concat (map (fun r => snd (fst r)) rs)).
Proof.
  intros U my c k ops rs db P C OK. apply rounds_spec; [|constructor|exact OK]. split; [apply Inv_drun, Inv_empty|]. split; [exact P|]. rewrite C. split; [intros x []|exact I].
Qed.
(* One fetch interrupted between two writes: what was not stored then is never stored, by any number of later fetches, although the server lists it. *)
Theorem C33_lost : forall U my c k S db batch n b rs, FI U my c k S db -> named S -> fresh S batch -> (1 <= b < 2 * length batch)%nat ->
  okRounds my c (batch ++ S) rs ->
  let db' := fst (muteprotoFetch U my c (batch ++ firstn n S) b db) in
  stored db db' = map (entry k) (firstn (Nat.div2 b) batch) /\ (Nat.div2 b < length batch)%nat /\
  rounds U my c (batch ++ S) rs db' = map (entry k) (concat (map (fun r => snd (fst r)) rs)).
Proof.
  intros U my c k S db batch n b rs H NS FB B OK. cbv zeta. destruct (fetch_spec U my c k S batch n b db H NS FB) as (db' & r & E & DI & H' & _). rewrite E. cbn [fst]. split; [|split].
  - unfold stored. rewrite DI, skipn_app_len by (rewrite map_length; reflexivity). reflexivity.
  - rewrite Nat.div2_div. apply Nat.div_lt_upper_bound; lia.
  - apply rounds_spec; [apply H'; right; lia| |exact OK]. apply Forall_app. split; [|exact NS]. eapply Forall_impl; [|exact FB]. cbn. tauto.
Qed.
Definition exMsg (n : N) : srvMsg := ([65 + n], [97 + n], Z.of_N (100 + n)).
Definition exAcc : msgdb := exRun [DAddAccount exA [] (be 64 7) (str "srv") (be 64 9) 0 0].
(* Two messages wait; the program stops after having marked the first one as known: neither is stored by anything that follows. *)
Theorem C33_refuted : exists my c l b, let db := exAcc in
  let db' := fst (muteprotoFetch goUnicode my c l b db) in
  length l = 2%nat /\ dbIn db' = [] /\
  forall rs, okRounds my c l rs -> forall x, In x l -> (forall r y, In r rs -> In y (snd (fst r)) -> snd (fst y) <> snd (fst x)) ->
  Forall (fun e => iMsg e <> snd (fst x)) (rounds goUnicode my c l rs db').
Proof.
  exists exA, [], [exMsg 2; exMsg 1], 1%nat. cbv zeta. split; [reflexivity|]. split; [vm_compute; reflexivity|]. intros rs OK x X NC.
  assert (FE : FI goUnicode exA [] (1, 0) [] exAcc).
  { split; [apply Inv_drun, Inv_empty|]. split; [vm_compute; reflexivity|]. split; [|exact I]. replace (cacheOf exA [] exAcc) with (@nil bytes) by (vm_compute; reflexivity). intros y []. }
  destruct (C33_lost goUnicode exA [] (1, 0) [] exAcc [exMsg 2; exMsg 1] 0 1 rs FE) as (_ & _ & R); [constructor| |cbn; lia|exact OK|].
  { apply Forall_cons; [split; [intros []|discriminate]|]. apply Forall_cons; [split; [intros []|discriminate]|]. apply Forall_nil. }
  cbn [app firstn] in R. rewrite R.
  apply Forall_forall. intros e E. apply in_map_iff in E as (y & <- & Y). cbn [entry iMsg]. apply in_concat in Y as (l & L & Y). apply in_map_iff in L as (r & <- & Rr). exact (NC _ _ Rr Y).
Qed.
Example C33_ex : rounds goUnicode exA [] [] [([], [exMsg 2; exMsg 1], 0%nat); ([DAddValue (str "a") (str "b")], [exMsg 3], 1%nat); ([], [exMsg 5; exMsg 4], 5%nat)] exAcc
  = map (entry (1, 0)) [exMsg 2; exMsg 1; exMsg 3; exMsg 5; exMsg 4].
Proof. vm_compute. reflexivity. Qed.
Example C33_ex_hyp : okRounds exA [] [] [([], [exMsg 2; exMsg 1], 0%nat); ([DAddValue (str "a") (str "b")], [exMsg 3], 1%nat); ([], [exMsg 5; exMsg 4], 5%nat)] /\ pairIDs goUnicode exA [] exAcc = Ok (1, 0).
Proof.
  split; [|vm_compute; reflexivity].
  cbn [okRounds app]. unfold fresh.
  repeat match goal with |- _ /\ _ => split | |- Forall _ (_ :: _) => apply Forall_cons | |- Forall _ [] => apply Forall_nil | |- True => exact I | |- sId _ <> [] => discriminate
    | |- ~ In _ _ => cbn; let X := fresh "X" in intros X; repeat (destruct X as [X|X]; [discriminate X|]); exact X | |- leaves _ _ _ => exact I end.
Qed.
Print Assumptions C33_complete_partial. Print Assumptions C33_lost. Print Assumptions C33_refuted.
