(* Mix messages and nym addresses: mix/mixcrypt, mix/nymaddr, mix/mixaddr, util/nymaddr.go.
   Keys of type *[32]byte are byte strings; copying a slice into such an array is pad32.
   Random values and the time are arguments.  AES-GCM, HMAC-SHA256 and the lioness block cipher
   are fields of a record with their laws; curve25519, ed25519, SHA256 and AES-CTR come from Crypto. *)
From Verif Require Import Base Base64Model CodecModel CryptoModel Asn1Model.
Delimit Scope string_scope with string.
Local Open Scope N_scope.

Record MixCrypto := {
  mxC :> Crypto;
  hmac256 : bytes -> bytes -> bytes;                    (* key, message *)
  hmac256_len : forall k m, lenN (hmac256 k m) = 32;
  hmac256_wf : forall k m, wfb (hmac256 k m);
  gcmseal : bytes -> bytes -> bytes -> bytes;           (* nonce (12 bytes), key, message *)
  gcmopen : bytes -> bytes -> bytes -> option bytes;
  gcmopen_seal : forall n k m, gcmopen n k (gcmseal n k m) = Some m;
  gcmseal_len : forall n k m, lenN (gcmseal n k m) = lenN m + 16;
  gcmseal_wf : forall n k m, wfb m -> wfb (gcmseal n k m);
  lionEnc : bytes -> bytes -> option bytes;             (* ronperry/cryptoedge/lioness: key, message *)
  lionDec : bytes -> bytes -> option bytes;
  lionDec_enc : forall k m c, lionEnc k m = Some c -> lionDec k c = Some m;
  lionEnc_len : forall k m c, lionEnc k m = Some c -> lenN c = lenN m;
  lionEnc_wf : forall k m c, lionEnc k m = Some c -> wfb m -> wfb c
}.

Definition pad32 (b : bytes) : bytes := takeN 32 (b ++ repeat 0 32).
(* s[lo:hi] with run-time bounds check; the capacity of the slices below equals their length *)
Definition sliceR (s : bytes) (lo hi : N) : res bytes :=
  if (lo <=? hi) && (hi <=? lenN s) then Ok (takeN (hi - lo) (dropN lo s)) else Panic.

(* ------------------------------------------------------------------ *)
(* mix/mixcrypt/common.go:14-52 *)
Definition ExpireReceive : Z := 172800.
Definition ForwardMinSize : N := 1024. Definition ForwardMaxSize : N := 65536.
Definition RelayMinSize : N := 4096. Definition RelayMaxSize : N := 65536.
Definition MuteSystemDomain : bytes := str "mute.one".
Definition MessageTypeForward : Z := 1. Definition MessageTypeRelay : Z := 2.

(* mix/mixcrypt/clientmix.go:16-23 ClientMixHeader; None is nil *)
Record mixHeader := mkMH { mhType : Z; mhMin : Z; mhMax : Z; mhToken : option bytes; mhAddress : bytes; mhRevoke : option bytes }.
Definition mhTypes : list dt := [TInt32; TInt32; TInt32; TOct; TOct; TOct].
(* mix/mixcrypt/clientmix.go:41-56 Marshal *)
Definition mhFields (h : mixHeader) : list dv :=
  [DInt (mhType h); DInt (mhMin h); DInt (mhMax h);
   DOct match mhToken h with None => [0] | Some t => t end;
   DOct (mhAddress h);
   DOct (if (mhType h =? MessageTypeForward)%Z then [0] else match mhRevoke h with None => [0] | Some r => r end)].
Definition mhMarshal (h : mixHeader) : bytes :=
  match derMarshal (mhFields h) with
  | Some d => be 2 (lenN d) ++ d
  | None => [] (* not reached: no string fields *)
  end.
(* mix/mixcrypt/clientmix.go:58-81 Unmarshal; d[0:2] plus 2 is computed in uint16 *)
Definition mhUnmarshal (d : bytes) : res (mixHeader * N) :=
  if lenN d <? 3 then Err "mixcrypt: too short"
  else
    let lenB := (be_dec (takeN 2 d) + 2) mod 65536 in
    if lenN d <? lenB then Err "mixcrypt: too short"
    else
      do s <- sliceR d 2 lenB;
      do l <- derUnmarshal mhTypes s;
      match l with
      | [DInt t; DInt mi; DInt ma; DOct tok; DOct addr; DOct rev] =>
        match tok with
        | [] => Panic (* cl.Token[0] *)
        | t0 :: tr =>
          match rev with
          | [] => Panic (* cl.RevokeID[0] *)
          | r0 :: rr =>
            Ok (mkMH t mi ma (if (t0 =? 0) && (lenN tok =? 1) then None else Some tok) addr
                  (if ((r0 =? 0) && (lenN rev =? 1)) || (t =? MessageTypeForward)%Z then None else Some rev), lenB)
          end
        end
      | _ => Err "not reached"
      end.

(* ------------------------------------------------------------------ *)
(* mix/nymaddr/addr.go:47-92 *)
Record nymAddress := mkNA { naMix : bytes; naExpire : Z; naSingle : bool; naToken : bytes; naMixPub : bytes; naKey : bytes; naPriv : bytes }.
Record nymPrivate := mkNP { npSystem : Z; npAddress : bytes; npExpire : Z; npSingle : bool; npMin : Z; npMax : Z; npNonce : bytes; npRecv : bytes; npEncNym : bytes; npHMAC : bytes }.
Record relayHeader := mkRH { rhSender : bytes; rhNonce : bytes; rhRecv : bytes; rhEncNym : bytes; rhHMAC : bytes }.
(* mix/mixaddr/addrlist.go:21-26 *)
Record mixAddr := mkMA { maPub : bytes; maExpire : Z; maAddress : bytes; maToken : bytes }.
Record addrTemplate := mkTpl { tpSecret : bytes; tpSystem : Z; tpMixes : list mixAddr; tpExpire : Z; tpSingle : bool; tpMin : Z; tpMax : Z }.
Definition naTypes := [TOct; TInt64; TBool; TOct; TOct; TOct; TOct].
Definition naFields (a : nymAddress) := [DOct (naMix a); DInt (naExpire a); DBool (naSingle a); DOct (naToken a); DOct (naMixPub a); DOct (naKey a); DOct (naPriv a)].
Definition npTypes := [TInt32; TOct; TInt64; TBool; TInt32; TInt32; TOct; TOct; TOct; TOct].
Definition npFields (p : nymPrivate) :=
  [DInt (npSystem p); DOct (npAddress p); DInt (npExpire p); DBool (npSingle p); DInt (npMin p); DInt (npMax p); DOct (npNonce p); DOct (npRecv p); DOct (npEncNym p); DOct (npHMAC p)].
Definition rhTypes := [TOct; TOct; TOct; TOct; TOct].
Definition rhFields (r : relayHeader) := [DOct (rhSender r); DOct (rhNonce r); DOct (rhRecv r); DOct (rhEncNym r); DOct (rhHMAC r)].
Definition lift {A : Type} (o : option A) (e : String.string) : res A := match o with Some a => Ok a | None => Err e end.
Arguments lift {A} o e%string.

(* mix/nymaddr/addr.go:112-123 ParseAddress *)
Definition parseAddress (now : Z) (b : bytes) : res nymAddress :=
  do l <- derUnmarshal naTypes b;
  match l with
  | [DOct mix; DInt ex; DBool su; DOct tok; DOct mp; DOct ak; DOct pd] =>
    if (ex <? now)%Z then Err "nymaddr: expired" else Ok (mkNA mix ex su tok mp ak pd)
  | _ => Err "not reached"
  end.

(* mix/mixaddr/addrlist.go:100-112 Expire and 139-146 Rand *)
Definition adlExpire (cutoff now : Z) (l : list mixAddr) : list mixAddr :=
  let c := if (cutoff =? 0)%Z then now else cutoff in filter (fun e => (c <? maExpire e)%Z) l.
Definition adlRand (rnd : N) (l : list mixAddr) : option mixAddr :=
  match l with [] => None | _ => nth_error l (N.to_nat (rnd mod lenN l)) end.

Section Mix.
Variable M : MixCrypto.

(* mix/nymaddr/crypt.go:12-31 *)
Definition encryptNym (key nym : bytes) : bytes :=
  let nym' := takeN 33 nym in
  let d := takeN 34 ([lenN nym' mod 33] ++ nym' ++ repeat 0 33) in
  xorb d (ctr M key (repeat 0 16) 34).
Definition decryptNym (key enc : bytes) : res bytes :=
  match xorb enc (ctr M key (repeat 0 16) (lenN enc)) with
  | [] => Panic
  | l :: r => sliceR (l :: r) 1 (l + 1)
  end.
(* mix/nymaddr/addr.go:278-297 *)
Definition genDetermPriv (secret nonce nym : bytes) : bytes := hmac256 M secret (nonce ++ nym).
Definition genSymKey (secret nonce recv address : bytes) : bytes := hmac256 M secret (nonce ++ recv ++ address).
Definition headHMAC (symkey nonce recv enc : bytes) : bytes := hmac256 M symkey (nonce ++ recv ++ enc).

(* mix/nymaddr/addr.go:210-276 NewAddress; [rnd], [apriv] and [nonce] are the random choices *)
Definition newAddress (tpl : addrTemplate) (mailbox nym0 : bytes) (now : Z) (rnd : N) (apriv nonce : bytes) : res bytes :=
  let nym := pad32 nym0 in
  match adlRand rnd (adlExpire (tpExpire tpl) now (tpMixes tpl)) with
  | None => Err "nymaddr: no mix found"
  | Some mix =>
    let recv := dhpub M (genDetermPriv (tpSecret tpl) nonce nym) in
    let symkey := genSymKey (tpSecret tpl) nonce recv mailbox in
    let enc := encryptNym symkey nym in
    let priv := mkNP (tpSystem tpl) mailbox (tpExpire tpl) (tpSingle tpl) (tpMin tpl) (tpMax tpl) nonce recv enc (headHMAC symkey nonce recv enc) in
    do pm <- lift (derMarshal (npFields priv)) "asn1";
    do pe <- lift (lionEnc M (dh M apriv (pad32 (maPub mix))) pm) "lioness";
    lift (derMarshal (naFields (mkNA (maAddress mix) (tpExpire tpl) (tpSingle tpl) (maToken mix) (maPub mix) (dhpub M apriv) pe))) "asn1"
  end.
(* mix/nymaddr/addr.go:125-151 GetMixData; [lookup] maps public to private keys *)
Definition getMixData (lookup : bytes -> option bytes) (a : nymAddress) : res nymPrivate :=
  match lookup (pad32 (naMixPub a)) with
  | None => Err "nymaddr: private key not found"
  | Some priv =>
    do pm <- lift (lionDec M (dh M priv (pad32 (naKey a))) (naPriv a)) "lioness";
    do l <- derUnmarshal npTypes pm;
    match l with
    | [DInt sy; DOct ad; DInt ex; DBool su; DInt mi; DInt ma; DOct no; DOct rp; DOct en; DOct hm] => Ok (mkNP sy ad ex su mi ma no rp en hm)
    | _ => Err "not reached"
    end
  end.
(* mix/nymaddr/addr.go:162-184 GetHeader; [epriv] is the random key *)
Definition getHeader (p : nymPrivate) (epriv : bytes) : res (bytes * bytes) :=
  do d <- lift (derMarshal (rhFields (mkRH (dhpub M epriv) (npNonce p) (npRecv p) (npEncNym p) (npHMAC p)))) "asn1";
  Ok (d, dh M epriv (pad32 (npRecv p))).
(* mix/nymaddr/addr.go:186-208 GetPrivate *)
Definition getPrivate (secret header mailbox : bytes) : res (bytes * bytes) :=
  do l <- derUnmarshal rhTypes header;
  match l with
  | [DOct se; DOct no; DOct rp; DOct en; DOct hm] =>
    let symkey := genSymKey secret no rp mailbox in
    if negb (beq hm (headHMAC symkey no rp en)) then Err "nymaddr: HMAC mismatch"
    else
      do nym <- decryptNym symkey en;
      let priv := genDetermPriv secret no nym in
      if negb (beq (dhpub M priv) rp) then Err "nymaddr: bad key in header"
      else Ok (nym, dh M priv (pad32 se))
  | _ => Err "not reached"
  end.

(* ------------------------------------------------------------------ *)
(* mix/mixcrypt/envelope.go:27-56 CalculateSharedSecret, ExpandSecret *)
Definition sharedSecret (pub priv nonce : bytes) : bytes := hmac256 M (dh M priv pub) nonce.
(* mix/mixcrypt/envelope.go:89-114 Encrypt; [priv] and [nonce] are random *)
Definition mixEncrypt (peer priv nonce data : bytes) : bytes :=
  peer ++ dhpub M priv ++ nonce ++ gcmseal M (takeN 12 nonce) (sharedSecret peer priv nonce) data.
(* mix/mixcrypt/envelope.go:116-134 Decrypt *)
Definition mixDecrypt (lookup : bytes -> option bytes) (d : bytes) : res bytes :=
  if lenN d <=? 96 then Err "mixcrypt: too short"
  else match lookup (takeN 32 d) with
  | None => Err "mixcrypt: keys missing"
  | Some priv =>
    let nonce := takeN 32 (dropN 64 d) in
    lift (gcmopen M (takeN 12 nonce) (sharedSecret (takeN 32 (dropN 32 d)) priv nonce) (dropN 96 d)) "cipher: message authentication failed"
  end.
(* mix/mixcrypt/clientmix.go:83-96 NewForwardMessage *)
Definition newForward (h : mixHeader) (nextHop peer msg priv nonce : bytes) : bytes * bytes :=
  let h' := mkMH MessageTypeForward (mhMin h) (mhMax h) (mhToken h) nextHop (mhRevoke h) in
  (mixEncrypt peer priv nonce (mhMarshal h' ++ msg), nextHop).
(* mix/mixcrypt/clientmix.go:98-119 NewRelayMessage *)
Definition newRelay (h : mixHeader) (now : Z) (nymaddress msg revoke priv nonce : bytes) : res (bytes * bytes) :=
  do a <- parseAddress now nymaddress;
  let h' := mkMH MessageTypeRelay (mhMin h) (mhMax h) (mhToken h) nymaddress (Some revoke) in
  Ok (mixEncrypt (pad32 (naMixPub a)) priv nonce (mhMarshal h' ++ msg), naMix a).
(* mix/mixcrypt/clientmix.go:121-177 ReceiveMessage *)
Record received := mkRecv { rcHeader : mixHeader; rcAddress : option nymAddress; rcPrivate : option nymPrivate; rcUnique : list (bytes * Z); rcMessage : bytes }.
Definition receiveMessage (lookup : bytes -> option bytes) (now : Z) (message : bytes) : res received :=
  do d <- mixDecrypt lookup message;
  do (h, lenB) <- mhUnmarshal d;
  let msgLen := lenN d - lenB in
  if (mhType h =? MessageTypeRelay)%Z && ((msgLen <? RelayMinSize) || (RelayMaxSize <? msgLen)) then Err "mixcrypt: message out of bounds"
  else if (mhType h =? MessageTypeForward)%Z && ((msgLen <? ForwardMinSize) || (ForwardMaxSize <? msgLen)) then Err "mixcrypt: message out of bounds"
  else if (mhType h =? MessageTypeRelay)%Z then
    do a <- parseAddress now (mhAddress h);
    do p <- getMixData lookup a;
    do first <- sliceR d lenB ((lenB + 256) mod 65536);
    Ok (mkRecv h (Some a) (Some p) ((sha256 M first, npExpire p) :: if npSingle p then [(npRecv p, npExpire p)] else []) (dropN lenB d))
  else
    do first <- sliceR d lenB ((lenB + 256) mod 65536);
    Ok (mkRecv h None None [(sha256 M first, (now + ExpireReceive)%Z)] (dropN lenB d)).
(* mix/mixcrypt/mixclient.go:14-44 Send, sendRelay *)
Definition sendRelay (p : nymPrivate) (msg epriv : bytes) : res (bytes * bytes) :=
  do (hc, secret) <- getHeader p epriv;
  let m := gcmseal M (takeN 12 (sha256 M hc)) secret msg in
  if negb (npSystem p =? 0)%Z then Err "mixcrypt: bad system"
  else Ok (be 2 (lenN hc) ++ hc ++ m, npAddress p ++ MuteSystemDomain).
Definition sendMessage (r : received) (epriv : bytes) : res (bytes * bytes) :=
  if (mhType (rcHeader r) =? MessageTypeRelay)%Z
  then match rcPrivate r with Some p => sendRelay p (rcMessage r) epriv | None => Panic end
  else Ok (rcMessage r, mhAddress (rcHeader r)).
(* mix/mixcrypt/mixclient.go:46-66 ReceiveFromMix *)
Definition receiveFromMix (secret mailbox msg : bytes) : res (bytes * bytes) :=
  if lenN msg <? 2 then Err "mixcrypt: too short"
  else
    let hl := be_dec (takeN 2 msg) in
    if lenN msg <? 2 + hl then Err "mixcrypt: too short"
    else
      let hc := takeN hl (dropN 2 msg) in
      do (nym, sec) <- getPrivate secret hc mailbox;
      do m <- lift (gcmopen M (takeN 12 (sha256 M hc)) sec (dropN (2 + hl) msg)) "cipher: message authentication failed";
      Ok (m, nym).

(* ------------------------------------------------------------------ *)
(* mix/mixaddr/addrlist.go:39-98 *)
Definition maImage (a : mixAddr) : bytes := maPub a ++ be 8 (Z.to_N (maExpire a mod 2 ^ 64)) ++ maAddress a ++ maToken a.
Definition adlHash (l : list mixAddr) : bytes := sha256 M (concat (map maImage l)).
Record statement := mkStmt { stAddrs : list mixAddr; stSig : bytes; stPub : bytes }.
Definition mkStatement (l : list mixAddr) (priv : bytes) : statement := mkStmt l (edsign M priv (adlHash l)) (edpub M priv).
Definition pad64 (b : bytes) : bytes := takeN 64 (b ++ repeat 0 64).
Definition adlVerify (l : list mixAddr) (pub sig : bytes) : bool := edverify M pub (adlHash l) sig.
Definition stVerify (s : statement) : bool := adlVerify (stAddrs s) (pad32 (stPub s)) (pad64 (stSig s)).

(* mix/mixaddr/privkey.go:28-51: the key list of a mix; Keys is a map, here a list of pairs *)
Record klEntry := mkKL { klPriv : bytes; klExpire : Z }.
Record keyList := mkKeyList { klKeys : list (bytes * klEntry); klStmt : option statement }.
Variable klAddress : bytes.   (* the fields Address, PrivateKey and Duration of KeyList do not change *)
Variable klSign : bytes.
Variable klDuration : Z.
Fixpoint klFind (pub : bytes) (l : list (bytes * klEntry)) : option klEntry :=
  match l with [] => None | (k, e) :: l' => if beq k pub then Some e else klFind pub l' end.
Definition klDel (pub : bytes) (l : list (bytes * klEntry)) : list (bytes * klEntry) := filter (fun x => negb (beq (fst x) pub)) l.
(* mix/mixaddr/privkey.go:70-83 GetPrivateKey *)
Definition getPrivateKey (now : Z) (pub : bytes) (k : keyList) : option bytes :=
  match klFind pub (klKeys k) with Some e => if (klExpire e <? now)%Z then None else Some (klPriv e) | None => None end.
(* mix/mixaddr/privkey.go:221-234 updateStatement *)
Definition klAddrs (l : list (bytes * klEntry)) : list mixAddr := map (fun x => mkMA (fst x) (klExpire (snd x)) klAddress (edpub M klSign)) l.
Definition updateStatement (k : keyList) : keyList := mkKeyList (klKeys k) (Some (mkStatement (klAddrs (klKeys k)) klSign)).
(* mix/mixaddr/privkey.go:175-194 expire *)
Definition klExpireRun (now : Z) (k : keyList) : keyList := mkKeyList (filter (fun x => negb (klExpire (snd x) <? now)%Z) (klKeys k)) (klStmt k).
(* mix/mixaddr/privkey.go:196-214 AddKey; the file written by saveKeys is not modelled *)
Definition addKey (now : Z) (priv : bytes) (k : keyList) : keyList :=
  let pub := dhpub M priv in
  updateStatement (mkKeyList ((pub, mkKL priv (now + klDuration)) :: klDel pub (klKeys k)) (klStmt k)).
Inductive klop := KLAdd (now : Z) (priv : bytes) | KLExpire (now : Z).
Definition klStep (k : keyList) (o : klop) : keyList := match o with KLAdd t p => addKey t p k | KLExpire t => klExpireRun t k end.
Definition klRun (ops : list klop) (k : keyList) : keyList := fold_left klStep ops k.
End Mix.

(* util/nymaddr.go:25-29 MailboxAddress *)
Definition mailboxAddress (pub server : bytes) : res bytes :=
  if lenN server <? lenN MuteSystemDomain then Panic
  else Ok (hexenc pub ++ [64] ++ takeN (lenN server - lenN MuteSystemDomain) server).
