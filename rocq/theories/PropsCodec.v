(* Theorems for C16-C21, C23, C24: encodings, padding, message identifiers,
   chunking, mail transport and identity mapping. *)
From Verif Require Import Base Base64Model Base64Proofs CodecModel CodecProofs IdentityModel IdentityProofs.
Local Open Scope N_scope.

(* ------------------------------ C16 ------------------------------- *)
(* [t] is [s] with line-break characters inserted at arbitrary places. *)
Inductive breaks_inserted : bytes -> bytes -> Prop :=
| bi_nil : breaks_inserted [] []
| bi_keep c s t : breaks_inserted s t -> breaks_inserted (c :: s) (c :: t)
| bi_cr s t : breaks_inserted s t -> breaks_inserted s (13 :: t)
| bi_lf s t : breaks_inserted s t -> breaks_inserted s (10 :: t).

Lemma strip_breaks s t : breaks_inserted s t -> strip_nl t = strip_nl s.
Proof.
  induction 1 as [|c s t H IH|s t H IH|s t H IH]; [reflexivity| | |].
  - unfold strip_nl in *. cbn [filter]. destruct (negb (is_nl c)); [now rewrite IH|exact IH].
  - exact IH.
  - exact IH.
Qed.

Theorem C16_base64_lossless : forall b, wfb b -> b64dec (b64enc b) = Some b.
Proof. exact b64dec_enc. Qed.
Theorem C16_base64_linebreaks : forall b s, wfb b -> breaks_inserted (b64enc b) s -> b64dec s = Some b.
Proof.
  intros b s W H. apply b64dec_with_breaks; [exact W|].
  rewrite (strip_breaks _ _ H). apply filter_id, b64enc_no_nl.
Qed.
(* 4 * ceil(n/3) characters, all of them from the base64 alphabet *)
Theorem C16_base64_length : forall b, lenN (b64enc b) = 4 * ((lenN b + 2) / 3).
Proof. exact lenN_b64enc. Qed.
(* RFC 4648, section 4, bit by bit: character i of the text is the character of the alphabet whose number consists of the
   bits 6i .. 6i+5 of the data (most significant bit first, bits past the end are 0), or '=' if there is no such bit. *)
Definition b64alphabet : bytes := str "ABCDEFGHIJKLMNOPQRSTUVWXYZabcdefghijklmnopqrstuvwxyz0123456789+/".
Definition dataBit (b : bytes) (k : N) : N := N.b2n (N.testbit (nth (N.to_nat (k / 8)) b 0) (7 - k mod 8)).
Definition sixBits (b : bytes) (i : N) : N :=
  32 * dataBit b (6 * i) + 16 * dataBit b (6 * i + 1) + 8 * dataBit b (6 * i + 2) + 4 * dataBit b (6 * i + 3) + 2 * dataBit b (6 * i + 4) + dataBit b (6 * i + 5).
Definition rfcChar (b : bytes) (i : N) : N := if 6 * i <? 8 * lenN b then nth (N.to_nat (sixBits b i)) b64alphabet 0 else 61.
Lemma below_all (p : N -> bool) n : forallb (fun k => p (N.of_nat k)) (seq 0 n) = true -> forall x, x < N.of_nat n -> p x = true.
Proof.
  intros H x L. rewrite forallb_forall in H. rewrite <- (N2Nat.id x). apply H. apply in_seq. lia.
Qed.
Lemma b64char_alphabet v : v < 64 -> b64char v = nth (N.to_nat v) b64alphabet 0.
Proof. intros H. apply N.eqb_eq. apply (below_all (fun v => b64char v =? nth (N.to_nat v) b64alphabet 0) 64); [vm_compute; reflexivity|exact H]. Qed.
Definition bt (x k : N) : N := N.b2n (N.testbit x k).
Lemma byte_parts x : x < 256 ->
  x / 4 = 32 * bt x 7 + 16 * bt x 6 + 8 * bt x 5 + 4 * bt x 4 + 2 * bt x 3 + bt x 2 /\ x mod 4 = 2 * bt x 1 + bt x 0 /\
  x / 16 = 8 * bt x 7 + 4 * bt x 6 + 2 * bt x 5 + bt x 4 /\ x mod 16 = 8 * bt x 3 + 4 * bt x 2 + 2 * bt x 1 + bt x 0 /\
  x / 64 = 2 * bt x 7 + bt x 6 /\ x mod 64 = 32 * bt x 5 + 16 * bt x 4 + 8 * bt x 3 + 4 * bt x 2 + 2 * bt x 1 + bt x 0.
Proof.
  intros H. pose proof (below_all (fun x => (x / 4 =? 32 * bt x 7 + 16 * bt x 6 + 8 * bt x 5 + 4 * bt x 4 + 2 * bt x 3 + bt x 2) && (x mod 4 =? 2 * bt x 1 + bt x 0) &&
    (x / 16 =? 8 * bt x 7 + 4 * bt x 6 + 2 * bt x 5 + bt x 4) && (x mod 16 =? 8 * bt x 3 + 4 * bt x 2 + 2 * bt x 1 + bt x 0) &&
    (x / 64 =? 2 * bt x 7 + bt x 6) && (x mod 64 =? 32 * bt x 5 + 16 * bt x 4 + 8 * bt x 3 + 4 * bt x 2 + 2 * bt x 1 + bt x 0)) 256 ltac:(vm_compute; reflexivity) x H) as E. cbv beta in E.
  repeat (apply andb_prop in E as [E ?]). repeat split; apply N.eqb_eq; assumption.
Qed.
Lemma dataBit_shift x y z b k : dataBit (x :: y :: z :: b) (24 + k) = dataBit b k.
Proof.
  unfold dataBit. replace ((24 + k) / 8) with (3 + k / 8) by lia. replace ((24 + k) mod 8) with (k mod 8) by lia.
  replace (N.to_nat (3 + k / 8)) with (S (S (S (N.to_nat (k / 8))))) by lia. reflexivity.
Qed.
Lemma rfcChar_shift x y z b i : rfcChar (x :: y :: z :: b) (4 + i) = rfcChar b i.
Proof.
  unfold rfcChar, sixBits. replace (6 * (4 + i)) with (24 + 6 * i) by lia. rewrite <- !N.add_assoc, !dataBit_shift. rewrite !lenN_cons.
  replace (24 + 6 * i <? 8 * (1 + (1 + (1 + lenN b)))) with (6 * i <? 8 * lenN b); [reflexivity|].
  destruct (6 * i <? 8 * lenN b) eqn:E; symmetry; [apply N.ltb_lt in E; apply N.ltb_lt; lia|apply N.ltb_ge in E; apply N.ltb_ge; lia].
Qed.
Lemma rfc_at b i v : 6 * i < 8 * lenN b -> v < 64 -> v = sixBits b i -> b64char v = rfcChar b i.
Proof.
  intros L B E. unfold rfcChar. apply N.ltb_lt in L. rewrite L. rewrite b64char_alphabet by exact B. rewrite E. reflexivity.
Qed.
Lemma six0 x b : sixBits (x :: b) 0 = 32 * bt x 7 + 16 * bt x 6 + 8 * bt x 5 + 4 * bt x 4 + 2 * bt x 3 + bt x 2. Proof. reflexivity. Qed.
Lemma six1 x y b : sixBits (x :: y :: b) 1 = 32 * bt x 1 + 16 * bt x 0 + 8 * bt y 7 + 4 * bt y 6 + 2 * bt y 5 + bt y 4. Proof. reflexivity. Qed.
Lemma six1' x : sixBits [x] 1 = 32 * bt x 1 + 16 * bt x 0 + 8 * 0 + 4 * 0 + 2 * 0 + 0. Proof. reflexivity. Qed.
Lemma six2 x y z b : sixBits (x :: y :: z :: b) 2 = 32 * bt y 3 + 16 * bt y 2 + 8 * bt y 1 + 4 * bt y 0 + 2 * bt z 7 + bt z 6. Proof. reflexivity. Qed.
Lemma six2' x y : sixBits [x; y] 2 = 32 * bt y 3 + 16 * bt y 2 + 8 * bt y 1 + 4 * bt y 0 + 2 * 0 + 0. Proof. reflexivity. Qed.
Lemma six3 x y z b : sixBits (x :: y :: z :: b) 3 = 32 * bt z 5 + 16 * bt z 4 + 8 * bt z 3 + 4 * bt z 2 + 2 * bt z 1 + bt z 0. Proof. reflexivity. Qed.
Theorem C16_base64_rfc4648 : forall b i, wfb b -> i < lenN (b64enc b) -> nth (N.to_nat i) (b64enc b) 0 = rfcChar b i.
Proof.
  assert (A : forall n b i, (List.length b <= n)%nat -> wfb b -> i < lenN (b64enc b) -> nth (N.to_nat i) (b64enc b) 0 = rfcChar b i).
  2:{ intros b i. apply (A (List.length b)). lia. }
  assert (LT : forall x, x < 256 -> x / 4 < 64 /\ x mod 4 < 4 /\ x / 16 < 16 /\ x mod 16 < 16 /\ x / 64 < 4 /\ x mod 64 < 64) by (intros; lia).
  induction n as [|n IH]; intros b i L W H.
  - destruct b; [|cbn in L; lia]. change (lenN (b64enc [])) with 0 in H. lia.
  - destruct b as [|x [|y [|z b]]].
    + change (lenN (b64enc [])) with 0 in H. lia.
    + inversion_clear W as [|? ? X _]. destruct (byte_parts x X) as (P1 & P2 & _). destruct (LT x X) as (Q1 & Q2 & _).
      cbn [b64enc] in H |- *. change (i < 4) in H.
      assert (C : i = 0 \/ i = 1 \/ i = 2 \/ i = 3) by (clear - H; lia). clear H. destruct C as [->|[->|[->| ->]]]; [| |reflexivity|reflexivity].
      * change (b64char (x / 4) = rfcChar [x] 0). apply rfc_at; [reflexivity|exact Q1|rewrite six0; exact P1].
      * change (b64char (x mod 4 * 16) = rfcChar [x] 1). apply rfc_at; [reflexivity|clear - Q2; lia|rewrite six1', P2; clear; lia].
    + inversion_clear W as [|? ? X W']. inversion_clear W' as [|? ? Y _]. destruct (byte_parts x X) as (P1 & P2 & _). destruct (LT x X) as (Q1 & Q2 & _).
      destruct (byte_parts y Y) as (_ & _ & P3 & P4 & _). destruct (LT y Y) as (_ & _ & Q3 & Q4 & _).
      cbn [b64enc] in H |- *. change (i < 4) in H.
      assert (C : i = 0 \/ i = 1 \/ i = 2 \/ i = 3) by (clear - H; lia). clear H. destruct C as [->|[->|[->| ->]]]; [| | |reflexivity].
      * change (b64char (x / 4) = rfcChar [x; y] 0). apply rfc_at; [reflexivity|exact Q1|rewrite six0; exact P1].
      * change (b64char (x mod 4 * 16 + y / 16) = rfcChar [x; y] 1). apply rfc_at; [reflexivity|clear - Q2 Q3 Q4; lia|rewrite six1, P2, P3; clear; lia].
      * change (b64char (y mod 16 * 4) = rfcChar [x; y] 2). apply rfc_at; [reflexivity|clear - Q2 Q3 Q4; lia|rewrite six2', P4; clear; lia].
    + inversion_clear W as [|? ? X W']. inversion_clear W' as [|? ? Y W'']. inversion_clear W'' as [|? ? Z W].
      destruct (byte_parts x X) as (P1 & P2 & _). destruct (LT x X) as (Q1 & Q2 & _).
      destruct (byte_parts y Y) as (_ & _ & P3 & P4 & _). destruct (LT y Y) as (_ & _ & Q3 & Q4 & _).
      destruct (byte_parts z Z) as (_ & _ & _ & _ & P5 & P6). destruct (LT z Z) as (_ & _ & _ & _ & Q5 & Q6).
      cbn [b64enc] in H |- *. rewrite !lenN_cons in H.
      assert (C : i = 0 \/ i = 1 \/ i = 2 \/ i = 3 \/ 4 <= i) by (clear; lia). destruct C as [->|[->|[->|[->|G]]]].
      * change (b64char (x / 4) = rfcChar (x :: y :: z :: b) 0). apply rfc_at; [rewrite !lenN_cons; clear; lia|exact Q1|rewrite six0; exact P1].
      * change (b64char (x mod 4 * 16 + y / 16) = rfcChar (x :: y :: z :: b) 1). apply rfc_at; [rewrite !lenN_cons; clear; lia|clear - Q2 Q3 Q4 Q5; lia|rewrite six1, P2, P3; clear; lia].
      * change (b64char (y mod 16 * 4 + z / 64) = rfcChar (x :: y :: z :: b) 2). apply rfc_at; [rewrite !lenN_cons; clear; lia|clear - Q2 Q3 Q4 Q5; lia|rewrite six2, P4, P5; clear; lia].
      * change (b64char (z mod 64) = rfcChar (x :: y :: z :: b) 3). apply rfc_at; [rewrite !lenN_cons; clear; lia|exact Q6|rewrite six3; exact P6].
      * clear - IH L W H G. replace i with (4 + (i - 4)) by lia. rewrite rfcChar_shift. replace (N.to_nat (4 + (i - 4))) with (S (S (S (S (N.to_nat (i - 4)))))) by lia. cbn [nth].
        apply IH; [cbn [List.length] in L; lia|exact W|lia].
Qed.
Example C16_ex_rfc : map (rfcChar (str "foob")) [0; 1; 2; 3; 4; 5; 6; 7] = str "Zm9vYg==". Proof. vm_compute; reflexivity. Qed.
Theorem C16_hex_lossless : forall b, wfb b -> hexdec (hexenc b) = Some b /\ lenN (hexenc b) = 2 * lenN b.
Proof. intros b H; split; [apply hexdec_enc; exact H|apply lenN_hexenc]. Qed.

(* digit i of the hexadecimal text is half byte i *)
Theorem C16_hex_digits : forall b i, wfb b -> i < 2 * lenN b ->
  nth (N.to_nat i) (hexenc b) 0 = nth (N.to_nat (let x := nth (N.to_nat (i / 2)) b 0 in if i mod 2 =? 0 then x / 16 else x mod 16)) (str "0123456789abcdef") 0.
Proof.
  assert (D : forall v, v < 16 -> hexchar v = nth (N.to_nat v) (str "0123456789abcdef") 0).
  { intros v H. apply N.eqb_eq. apply (below_all (fun v => hexchar v =? nth (N.to_nat v) (str "0123456789abcdef") 0) 16); [vm_compute; reflexivity|exact H]. }
  induction b as [|x b IH]; intros i W H; [change (lenN (@nil N)) with 0 in H; lia|]. inversion_clear W as [|? ? X W']. cbn [hexenc flat_map app] in *. rewrite lenN_cons in H.
  assert (C : i = 0 \/ i = 1 \/ 2 <= i) by lia. destruct C as [->|[->|G]].
  - apply (D (x / 16)). lia.
  - apply (D (x mod 16)). lia.
  - replace i with (2 + (i - 2)) by lia. set (k := i - 2) in *. replace ((2 + k) / 2) with (1 + k / 2) by lia. replace ((2 + k) mod 2) with (k mod 2) by lia.
    replace (N.to_nat (2 + k)) with (S (S (N.to_nat k))) by lia. replace (N.to_nat (1 + k / 2)) with (S (N.to_nat (k / 2))) by lia. cbn [nth]. apply IH; [exact W'|lia].
Qed.

Example C16_ex_enc : b64enc (str "foob") = str "Zm9vYg==". Proof. vm_compute; reflexivity. Qed.
Example C16_ex_dec : b64dec (str "Zm9v" ++ [13; 10] ++ str "YmFy" ++ [10]) = Some (str "foobar").
Proof. vm_compute; reflexivity. Qed.
Example C16_ex_breaks : breaks_inserted (b64enc (str "foo")) (str "Zm" ++ [13; 10] ++ str "9v").
Proof. vm_compute. repeat constructor. Qed.
Example C16_ex_bad : b64dec (str "Zm9vY") = None. Proof. vm_compute; reflexivity. Qed.
Example C16_ex_hex : hexenc [0; 255; 26] = str "00ff1a". Proof. vm_compute; reflexivity. Qed.

(* ------------------------------ C17 ------------------------------- *)
Theorem C17_uint64 : forall u, u < 2 ^ 64 ->
  toUint64 (toByte8 u) = Ok u /\ lenN (toByte8 u) = 8 /\ wfb (toByte8 u).
Proof.
  intros u H; split; [apply toUint64_toByte8; exact H|]. rewrite toByte8_le. split; [reflexivity|apply wfb_le].
Qed.
Theorem C17_uint64_bytes : forall b, wfb b ->
  (forall u, toUint64 b = Ok u -> toByte8 u = b /\ u < 2 ^ 64) /\ (lenN b <> 8 -> toUint64 b = Panic).
Proof. intros b W; split; [intros u; apply toByte8_toUint64; exact W|apply toUint64_total]. Qed.
Theorem C17_uint16 : forall u, u < 2 ^ 16 ->
  toUint16 (toByte2 u) = Ok u /\ lenN (toByte2 u) = 2 /\ wfb (toByte2 u).
Proof.
  intros u H; split; [apply toUint16_toByte2; exact H|]. rewrite toByte2_le. split; [reflexivity|apply wfb_le].
Qed.
Theorem C17_uint16_bytes : forall b, wfb b ->
  (forall u, toUint16 b = Ok u -> toByte2 u = b /\ u < 2 ^ 16) /\ (lenN b <> 2 -> toUint16 b = Panic).
Proof. intros b W; split; [intros u; apply toByte2_toUint16; exact W|apply toUint16_total]. Qed.
Theorem C17_uint8 : forall u, u < 2 ^ 8 -> toByte1 u = [u].
Proof. intros u H. unfold toByte1. f_equal. apply N.mod_small. exact H. Qed.
(* the byte order: the first byte is the least significant one *)
Theorem C17_little_endian : forall b0 b1 b2 b3 b4 b5 b6 b7,
  wfb [b0; b1; b2; b3; b4; b5; b6; b7] ->
  toByte8 (le_dec [b0; b1; b2; b3; b4; b5; b6; b7]) = [b0; b1; b2; b3; b4; b5; b6; b7].
Proof. intros. rewrite toByte8_le. exact (le_le_dec _ H). Qed.

Example C17_ex : toByte8 0x0102030405060708 = [8; 7; 6; 5; 4; 3; 2; 1]
  /\ toUint64 [8; 7; 6; 5; 4; 3; 2; 1] = Ok 0x0102030405060708
  /\ toUint16 [1; 2] = Ok 513 /\ toUint64 [1] = Panic.
Proof. vm_compute; auto. Qed.

(* ------------------------------ C18 ------------------------------- *)
(* [decimal] really is the decimal notation: parsing it gives the number. *)
Theorem C18_decimal_is_decimal : forall u, u < 2 ^ 64 -> parse_dec (decimal u) = Some u.
Proof. exact parse_dec_decimal. Qed.
Theorem C18_digit_count : forall u, u < 2 ^ 64 -> digitsCount u = lenN (decimal u).
Proof. exact digitsCount_decimal. Qed.
Example C18_ex : digitsCount 99999 = 5 /\ decimal 99999 = str "99999" /\ digitsCount 18446744073709551615 = 20
  /\ digitsCount 10 = 2 /\ decimal 0 = str "0".
Proof. vm_compute; auto. Qed.

(* ------------------------------ C19 ------------------------------- *)
Theorem C19_padding_length : forall ctr length rand p,
  paddingGenerate ctr length rand = Ok p -> Z.of_N (lenN p) = length.
Proof. exact paddingGenerate_length. Qed.
Theorem C19_padding_succeeds : forall ctr length rand,
  (forall k n, lenN (ctr k n) = n) -> (0 <= length)%Z -> 32 <= lenN rand ->
  exists p, paddingGenerate ctr length rand = Ok p.
Proof. exact paddingGenerate_succeeds. Qed.
Example C19_ex : paddingGenerate (fun k n => repeat 7 (N.to_nat n)) 33 (repeat 1 32) = Ok (repeat 7 33).
Proof. vm_compute; reflexivity. Qed.

(* ------------------------------ C20 ------------------------------- *)
Theorem C20_msgid_names_sender : forall U sender rand year month id,
  wfb rand -> ~ In dash year -> ~ In dash month ->
  msgidGenerate U sender rand year month = Ok id -> msgidParse id = sender.
Proof. exact msgid_parse_generate. Qed.
Theorem C20_msgid_generated : forall U sender rand year month,
  isMapped U sender = true -> 16 <= lenN rand -> exists id, msgidGenerate U sender rand year month = Ok id.
Proof. exact msgid_generate_succeeds. Qed.
Example C20_ex :
  let id := msgidGenerate goUnicode (str "a-b.c@x-y.berlin") (repeat 171 16) (str "2015") (str "07") in
  id = Ok (str "2015-07-abababababababababababababababab-a-b.c@x-y.berlin")
  /\ (forall i, id = Ok i -> msgidParse i = str "a-b.c@x-y.berlin").
Proof. vm_compute. split; [reflexivity|]. intros i E; inversion E; reflexivity. Qed.

(* ------------------------------ C21 ------------------------------- *)
Theorem C21_chunks : forall mid msg size, 0 < size < 2 ^ 64 -> lenN msg < 2 ^ 63 ->
  exists cs, encodeChunks mid msg size = Ok cs
    /\ concat (map part cs) = msg
    /\ numbered 1 (lenN cs) mid cs /\ sized size cs.
Proof. exact encodeChunks_spec. Qed.
Example C21_ex : exists cs, encodeChunks (str "id") (str "abcdefg") 3 = Ok cs
  /\ map part cs = [str "abc"; str "def"; str "g"] /\ map piece cs = [1; 2; 3] /\ map count cs = [3; 3; 3].
Proof. eexists; vm_compute; auto. Qed.

(* ------------------------------ C23 ------------------------------- *)
(* Written mail is read back exactly as long as the body has at most 194283
   bytes, and rejected as too large otherwise. *)
Theorem C23_mail_roundtrip : forall sender receiver date body,
  no_nl sender -> no_nl receiver -> no_nl date -> wfb body ->
  readMail (writeMail sender receiver date body)
  = if lenN body <=? 194283 then Ok body else Err "ErrMaxSize".
Proof. exact readMail_writeMail. Qed.
(* every encrypted message (at most 65536 bytes) and every mix message around
   it therefore fits *)
Fixpoint begins (p s : bytes) : bool := match p, s with [], _ => true | x :: p', y :: s' => (x =? y) && begins p' s' | _, _ => false end.
Theorem C23_mail_lines : forall sender receiver date body, exists header ls,
  writeMail sender receiver date body = concat (map (fun l => l ++ CRLF) header) ++ CRLF ++ join CRLF ls
  /\ Forall (fun l => lenN l <= 72 /\ no_nl l) ls
  /\ filter (begins (str "From:")) header = [str "From: " ++ sender]
  /\ filter (begins (str "To:")) header = [str "To: " ++ receiver]
  /\ filter (begins (str "Date:")) header = [str "Date: " ++ date].
Proof.
  intros. destruct (splitMaxLine_lines (b64enc body) 72 ltac:(lia) (b64enc_no_nl body)) as (ls & E & F).
  exists (writeMailHeader sender receiver date), ls. unfold writeMail. rewrite E. split; [reflexivity|]. split; [exact F|].
  split; [reflexivity|]. split; reflexivity.
Qed.
Example C23_ex : readMail (writeMail (str "a@b") (str "c@d") (str "now") (repeat 200 100)) = Ok (repeat 200 100).
Proof. vm_compute; reflexivity. Qed.

(* ------------------------------ C24 ------------------------------- *)
(* The shape of a mapped identity: a well-formed local part, one '@', a domain
   without '@'. *)
Theorem C24_mapped_form : forall U x y, imap U x = Ok y ->
  exists lp dom, y = lp ++ [64] ++ dom /\ Forall lpchar lp /\ well_separated lp /\ 3 <= lenN lp <= 64 /\ ~ In 64 dom.
Proof.
  intros U x y H. apply imap_inv in H as (lp & dom & mlp & -> & Hl & Hd & M & -> & Hx).
  pose proof (mapLocalpart_inv _ _ _ M) as (A & B & C & _).
  exists mlp, (toLower U dom). split; [reflexivity|]. split; [exact A|]. split; [exact B|].
  split; [exact C|]. apply toLower_no_at; assumption.
Qed.
Theorem C24_look_alikes : forall U lp lp' dom dom' m,
  Forall (fun c => c < 128) (lp ++ dom) -> Forall (fun c => c < 128) dom' ->
  Forall2 look lp lp' -> map lower_ascii dom = map lower_ascii dom' ->
  imap U (lp ++ [64] ++ dom) = Ok m -> imap U (lp' ++ [64] ++ dom') = Ok m.
Proof. exact imap_look. Qed.
(* Full statement: forall U x y, imap U x = Ok y -> imap U y = Ok y.  It is
   false when lower-casing makes the domain longer in UTF-8; what holds is
   idempotence whenever the mapped form still obeys the length limit, in
   particular for ASCII identities. *)
Theorem C24_idempotent_partial : forall U x y,
  imap U x = Ok y -> utf8len y <= MaxLen -> imap U y = Ok y.
Proof. exact imap_fix. Qed.
Theorem C24_idempotent_ascii : forall U x y, Forall (fun c => c < 128) x ->
  imap U x = Ok y -> imap U y = Ok y.
Proof.
  intros U x y Ha. apply imap_idem. intros c Hc. apply runelen_lower_ascii.
  rewrite Forall_forall in Ha. apply Ha; exact Hc.
Qed.
Theorem C24_idempotent_refuted : exists x y,
  imap goUnicode x = Ok y /\ imap goUnicode y <> Ok y /\ isMapped goUnicode y = false.
Proof.
  exists (str "abc@" ++ repeat 0x23A 125), (str "abc@" ++ repeat 0x2C65 125).
  split; [vm_compute; reflexivity|]. split; [vm_compute; discriminate|vm_compute; reflexivity].
Qed.
Example C24_ex : imap goUnicode (str " J0hn.D1x@Mute.Berlin") = Ok (str "iohn.dlx@mute.berlin")
  /\ imap goUnicode (str "iohn.dlx@mute.berlin") = Ok (str "iohn.dlx@mute.berlin")
  /\ Forall2 look (str "J0hn") (str "iOHN").
Proof.
  split; [vm_compute; reflexivity|]. split; [vm_compute; reflexivity|].
  cbv [str map Ascii.N_of_ascii String.list_ascii_of_string].
  constructor; [apply look_trans with 106; [apply (look_case 74); lia|apply look_j]|].
  constructor; [apply look_trans with 111; [apply look_0|apply look_sym, (look_case 79); lia]|].
  constructor; [apply look_sym, (look_case 72); lia|].
  constructor; [apply look_sym, (look_case 78); lia|]. constructor.
Qed.

Print Assumptions C16_base64_lossless.
Print Assumptions C16_base64_linebreaks.
Print Assumptions C16_base64_length.
Print Assumptions C16_base64_rfc4648.
Print Assumptions C16_hex_digits.
Print Assumptions C16_hex_lossless.
Print Assumptions C17_uint64.
Print Assumptions C17_uint64_bytes.
Print Assumptions C17_uint16.
Print Assumptions C17_uint16_bytes.
Print Assumptions C17_uint8.
Print Assumptions C17_little_endian.
Print Assumptions C18_decimal_is_decimal.
Print Assumptions C18_digit_count.
Print Assumptions C19_padding_length.
Print Assumptions C19_padding_succeeds.
Print Assumptions C20_msgid_names_sender.
Print Assumptions C20_msgid_generated.
Print Assumptions C21_chunks.
Print Assumptions C23_mail_roundtrip.
Print Assumptions C23_mail_lines.
Print Assumptions C24_mapped_form.
Print Assumptions C24_look_alikes.
Print Assumptions C24_idempotent_partial.
Print Assumptions C24_idempotent_ascii.
Print Assumptions C24_idempotent_refuted.
