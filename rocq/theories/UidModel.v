(* UID messages and KeyInit messages (package uid), the tables of keydb that hold own identities and
   KeyInit messages, and the commands of cryptengine that create, register, update and fetch them.
   Randomness (private keys, initialisation vectors) and the clock are arguments.  The key server is a function from
   requests to answers. *)
From Verif Require Import Base Base64Model CodecModel IdentityModel JsonModel CryptoModel Maps StoreModel KeysModel HeaderModel SqlModel KeyDBModel HashChainModel.
Local Open Scope N_scope.

(* uid/uid.go:47-65 PFSPreference and its strings; another number panics *)
Definition pfsString (p : N) : res bytes :=
  if p =? 0 then Ok (str "mandatory") else if p =? 1 then Ok (str "strict") else if p =? 2 then Ok (str "optional") else Panic.
Definition pfsOptional : N := 2.
Definition ProtocolVersion : bytes := str "1.0".

(* uid/keyinit.go:20-24 SessionAnchor, 26-36 contents, 39-42 KeyInit *)
Record sessAnchor := mkSA { saMix : bytes; saNym : bytes; saKeys : list keyEntry }.
Record kiContents := mkKC { kcVersion : bytes; kcMsgCount : N; kcNotAfter : N; kcNotBefore : N; kcFallback : bool;
  kcSigKeyHash : bytes; kcRepo : bytes; kcAnchor : bytes; kcAnchorHash : bytes }.
Record keyInit := mkKI { kiCont : kiContents; kiSig : bytes }.
(* marshalSorted: keys in sorted order *)
Definition saToJson (s : sessAnchor) : json :=
  JObj [(str "MIXADDRESS", JStr (saMix s)); (str "NYMADDRESS", JStr (saNym s)); (str "PFKEYS", jkes (saKeys s))].
Definition kcToJson (c : kiContents) : json :=
  JObj [(str "FALLBACK", JBool (kcFallback c)); (str "MSGCOUNT", JN (kcMsgCount c)); (str "NOTAFTER", JN (kcNotAfter c));
        (str "NOTBEFORE", JN (kcNotBefore c)); (str "REPOURI", JStr (kcRepo c)); (str "SESSIONANCHOR", JStr (kcAnchor c));
        (str "SESSIONANCHORHASH", JStr (kcAnchorHash c)); (str "SIGKEYHASH", JStr (kcSigKeyHash c)); (str "VERSION", JStr (kcVersion c))].
Definition kiToJson (k : keyInit) : json := JObj [(str "Contents", kcToJson (kiCont k)); (str "SIGNATURE", JStr (kiSig k))].
Definition saJSON (s : sessAnchor) : bytes := jprint (saToJson s).
Definition kcJSON (c : kiContents) : bytes := jprint (kcToJson c).
Definition kiJSON (k : keyInit) : bytes := jprint (kiToJson k).
(* json.Unmarshal *)
Definition saOfJson (v : json) : option sessAnchor :=
  doo l <- dec_obj (Some v);
  doo a <- dec_str (jfield (str "MIXADDRESS") l);
  doo b <- dec_str (jfield (str "NYMADDRESS") l);
  doo c <- dec_arr keOfJson (jfield (str "PFKEYS") l);
  Some (mkSA a b c).
Definition kiOfJson (v : json) : option keyInit :=
  doo top <- dec_obj (Some v);
  doo l <- dec_obj (jfield (str "Contents") top);
  doo ver <- dec_str (jfield (str "VERSION") l);
  doo cnt <- dec_uint 64 (jfield (str "MSGCOUNT") l);
  doo na <- dec_uint 64 (jfield (str "NOTAFTER") l);
  doo nb <- dec_uint 64 (jfield (str "NOTBEFORE") l);
  doo fb <- dec_bool (jfield (str "FALLBACK") l);
  doo sk <- dec_str (jfield (str "SIGKEYHASH") l);
  doo ru <- dec_str (jfield (str "REPOURI") l);
  doo an <- dec_str (jfield (str "SESSIONANCHOR") l);
  doo ah <- dec_str (jfield (str "SESSIONANCHORHASH") l);
  doo sg <- dec_str (jfield (str "SIGNATURE") top);
  Some (mkKI (mkKC ver cnt na nb fb sk ru an ah) sg).
(* uid/keyinit.go:50-56 NewJSONKeyInit; also used for the session anchor, 128-131 *)
Definition newJSONAnchor (s : bytes) : res sessAnchor :=
  match jparse s with
  | None => Err "json"
  | Some v => match saOfJson v with Some u => Ok u | None => Err "json: cannot unmarshal" end
  end.
Definition newJSONKeyInit (s : bytes) : res keyInit :=
  match jparse s with
  | None => Err "json"
  | Some v => match kiOfJson v with Some u => Ok u | None => Err "json: cannot unmarshal" end
  end.
(* uid/keyinit.go:45-46 *)
Definition MaxNotAfter : N := 7776000.

Section Uid.
Variable U : Unicode.
Variable C : Crypto.

(* uid/keyentry.go:115-128 initSigKey; the private key is what Ed25519Generate makes of the randomness *)
Definition initSigKey (priv : bytes) : keyEntry :=
  mkKE DefaultCiphersuite fED25519 (b64enc (sha512 C (edpub C priv))) (b64enc (edpub C priv)).
(* cipher/ed25519.go:69-72 Sign: a key that was not set panics *)
Definition signWith (k : option bytes) (m : bytes) : res bytes := match k with None => Panic | Some k => Ok (b64enc (edsign C k m)) end.
(* base64 decoding, SetPublicKey, Verify as in uid/uid.go:443-461 and its like *)
Definition checkSig (pub m sig : bytes) (e : String.string) : res unit :=
  match b64dec sig with
  | None => Err "base64"
  | Some s =>
    match b64dec pub with
    | None => Err "base64"
    | Some pk =>
      if negb (lenN pk =? 32) then Err "cipher: Ed25519Key.SetPublicKey(): wrong length"
      else if edverify C pk m s then Ok tt else Err e
    end
  end.
(* the same when the error of SetPublicKey is ignored, uid/keyinit.go:189-207, 217-236: an unset key makes ed25519.Verify panic *)
Definition checkSigP (pub m sig : bytes) (e : String.string) : res unit :=
  match b64dec sig with
  | None => Err "base64"
  | Some s =>
    match b64dec pub with
    | None => Err "base64"
    | Some pk =>
      if negb (lenN pk =? 32) then Panic
      else if edverify C pk m s then Ok tt else Err e
    end
  end.
Definition setSelfSig (s : bytes) (u : uidMsg) : uidMsg :=
  mkUid (uVersion u) (uMsgCount u) (uNotAfter u) (uNotBefore u) (uMix u) (uNym u) (uIdentity u) (uSigKey u) (uPubKeys u) (uEscrow u) (uLastEntry u)
    (uRepoURIs u) (uFwdSec u) (uSuites u) (uChain u) (uEscrowSig u) (uUserSig u) s (uLinkAuth u).
Definition setUserSig (s : bytes) (u : uidMsg) : uidMsg :=
  mkUid (uVersion u) (uMsgCount u) (uNotAfter u) (uNotBefore u) (uMix u) (uNym u) (uIdentity u) (uSigKey u) (uPubKeys u) (uEscrow u) (uLastEntry u)
    (uRepoURIs u) (uFwdSec u) (uSuites u) (uChain u) (uEscrowSig u) s (uSelfSig u) (uLinkAuth u).
(* uid/uid.go:129-196 Create; the private keys of signature, encryption and escrow are given, [yearLater] is times.OneYearLater *)
Definition create (userID : bytes) (sigescrow : bool) (mix nym : bytes) (pfs : N) (lastEntry : bytes) (yearLater : N) (sp ep xp : bytes) : res ident :=
  if negb (isMapped U userID) then Err "identity: not mapped"
  else match split userID with
  | Ok (lp, domain) =>
    do _ <- (if beq lp keyserver then Ok tt else do _ <- splitEntry lastEntry; Ok tt);
    do fs <- pfsString pfs;
    let u := mkUid ProtocolVersion 0 yearLater 0 (if pfs =? pfsOptional then mix else []) (if pfs =? pfsOptional then nym else []) userID
               (initSigKey sp) [initDHKey C ep] (if sigescrow then Some (initSigKey xp) else None) lastEntry [domain] fs [DefaultCiphersuite] None [] [] [] [] in
    Ok (mkIdent (setSelfSig (b64enc (edsign C sp (contentJSON u))) u) (Some ep) (Some sp))
  | _ => Panic
  end.
(* uid/uid.go:198-238 checkV1_0.  reflect.DeepEqual of a pointer and a struct is false: any chain link is refused. *)
Definition checkV1 (u : uidMsg) : res unit :=
  if negb (beq (uFwdSec u) (str "strict")) then Err "uid: FORWARDSEC must be strict"
  else match uPubKeys u with
  | [k] =>
    if negb (beq (keSuite k) DefaultCiphersuite) then Err "uid: UIDContent.PUBKEYS[0].CIPHERSUITE != DefaultCiphersuite"
    else if negb (beq (keFunc k) fECDHE) then Err "uid: UIDContent.PUBKEYS[0].FUNCTION"
    else if match uEscrow u with Some e => negb (beq (keSuite e) [] && beq (keFunc e) [] && beq (keHash e) [] && beq (kePub e) []) | None => false end
    then Err "uid: UIDContent.SIGESCROW must be zero-value"
    else let domain := match split (uIdentity u) with Ok (_, d) => d | _ => [] end in
    if negb (match uRepoURIs u with [d] => beq d domain | _ => false end) then Err "uid: UIDContent.REPOURIS must contain one entry (domain of identity)"
    else match uChain u with Some _ => Err "uid: UIDContent.CHAINLINK must be zero-value" | None => Ok tt end
  | _ => Err "uid: UIDContent.PUBKEYS must contain exactly one key"
  end.
(* uid/uid.go:241-289 Check *)
Definition check (u : uidMsg) : res unit :=
  if negb (beq (uVersion u) ProtocolVersion) then Err "uid: unknown UIDContent.VERSION"
  else if negb (beq (uFwdSec u) (str "optional")) && negb (beq (uMix u) []) then Err "uid: MIXADDRESS must be null"
  else if negb (beq (uFwdSec u) (str "optional")) && negb (beq (uNym u) []) then Err "uid: NYMADDRESS must be null"
  else if negb (isMapped U (uIdentity u)) then Err "identity: not mapped"
  else if negb (beq (keSuite (uSigKey u)) DefaultCiphersuite) then Err "uid: UIDContent.SIGKEY.CIPHERSUITE != DefaultCiphersuite"
  else if negb (beq (keFunc (uSigKey u)) fED25519) then Err "uid: UIDContent.SIGKEY.FUNCTION != ED25519"
  else
    let lp := match split (uIdentity u) with Ok (l, _) => l | _ => [] end in
    do _ <- (if beq lp keyserver then Ok tt else do _ <- splitEntry (uLastEntry u); Ok tt);
    if negb (beq (uEscrowSig u) []) && negb (beq (uUserSig u) []) then Err "uid: USERSIGNATURE and ESCROWSIGNATURE cannot be set at the same time"
    else checkV1 u.
(* uint64 arithmetic *)
Definition wrap64 (n : N) : N := n mod 2 ^ 64.
(* uid/uid.go:465-491 VerifyUserSig *)
Definition verifyUserSig (u pre : uidMsg) : res unit :=
  if negb (wrap64 (uMsgCount pre + 1) =? uMsgCount u) then Err "uid: MSGCOUNT increment invalid"
  else checkSig (kePub (uSigKey pre)) (contentJSON u) (uUserSig u) "uid: user-signature invalid"%string.
(* uid/uid.go:572-597 Update; [sp] is the new signature key.  The copy shares the slice of public keys. *)
Definition update (i : ident) (sp : bytes) : res ident :=
  let m := idUid i in
  let u := mkUid (uVersion m) (wrap64 (uMsgCount m + 1)) (uNotAfter m) (uNotBefore m) (uMix m) (uNym m) (uIdentity m) (initSigKey sp) (uPubKeys m) (uEscrow m)
             (uLastEntry m) (uRepoURIs m) (uFwdSec m) (uSuites m) (uChain m) (uEscrowSig m) (uUserSig m) (uSelfSig m) (uLinkAuth m) in
  do k <- pubKey m;
  do ep <- priv32 k (idEncPriv i);
  if negb (lenN ep =? 32) then Err "cipher: Curve25519Key.SetPrivateKey(): wrong length"
  else
    let s := b64enc (edsign C sp (contentJSON u)) in
    do p <- signWith (idSigPriv i) (contentJSON u);
    Ok (mkIdent (setUserSig p (setSelfSig s u)) (Some ep) (Some sp)).
(* uid/uid.go:293-306 Encrypt, all three results; [iv] is read from the random source *)
Definition encryptUid (u : uidMsg) (iv : bytes) : bytes * bytes * bytes :=
  let m := uidJSON u in
  (uidHash C u, uidIndex C u, b64enc (uidIndex C u ++ iv ++ xorb m (ctr C (uidHash C u) iv (lenN m)))).
(* uid/uid.go:364-386 CreateReply *)
Definition createReply (enc hcEntry : bytes) (pos : N) (srvPriv : bytes) : uidReply :=
  let r := mkReply enc hcEntry pos [] in
  mkReply enc hcEntry pos (b64enc (edsign C srvPriv (entryJSON r))).
(* uid/uid.go:355-361 SigKeyHash *)
Definition sigKeyHash (h : bytes) : res bytes := match b64dec h with None => Err "base64" | Some b => Ok (b64enc (sha512 C b)) end.
(* uid/uid.go:600-604 SignNonce and 607-624 VerifyNonce *)
Definition signNonce (i : ident) (now : N) : res (N * bytes) := do s <- signWith (idSigPriv i) (toByte8 now); Ok (now, s).
Definition verifyNonce (sigPub : bytes) (nonce : N) (sig : bytes) : res unit := checkSig sigPub (toByte8 nonce) sig "uid: nonce signature invalid"%string.

(* uid/keyinit.go:80-88 SessionAnchor.KeyEntry *)
Fixpoint anchorKey (f : bytes) (l : list keyEntry) : res keyEntry :=
  match l with [] => Err "uid: KeyEntry not found" | k :: l' => if beq (keFunc k) f then Ok k else anchorKey f l' end.
(* uid/keyinit.go:114-137 KeyInit.SessionAnchor *)
Definition sessionAnchor (ki : keyInit) (sigPub : bytes) : res sessAnchor :=
  let c := kiCont ki in
  match b64dec sigPub with
  | None => Err "base64"
  | Some pk =>
    let kh := sha512 C pk in
    if negb (beq (kcSigKeyHash c) (b64enc (sha512 C kh))) then Err "uid: SIGKEYHASH does not match"
    else match b64dec (kcAnchor c) with
    | None => Err "base64"
    | Some enc =>
      do txt <- ctrDecrypt C (takeN 32 kh) enc;
      do sa <- newJSONAnchor txt;
      if negb (beq (kcAnchorHash c) (b64enc (sha512 C (saJSON sa)))) then Err "uid: SESSIONANCHORHASH does not match"
      else Ok sa
    end
  end.
(* uid/keyinit.go:141-151 KeyEntryECDHE25519 *)
Definition keyEntryECDHE (ki : keyInit) (sigPub : bytes) : res keyEntry := do sa <- sessionAnchor ki sigPub; anchorKey fECDHE (saKeys sa).
(* uid/keyinit.go:155-210 Verify *)
Definition verifyKI (ki : keyInit) (uris : list bytes) (sigPub : bytes) (now : N) : res unit :=
  let c := kiCont ki in
  if negb (existsb (beq (kcRepo c)) uris) then Err "uid: repo URI does not match"
  else
    do sa <- sessionAnchor ki sigPub;
    do ke <- anchorKey fECDHE (saKeys sa);
    do _ <- keVerify C ke;
    if kcNotAfter c <=? kcNotBefore c then Err "uid: invalid times"
    else if kcNotAfter c <? now then Err "uid: expired"
    else checkSigP sigPub (kcJSON c) (kiSig ki) "uid: KeyInit signature invalid"%string.
(* uid/keyinit.go:213-215 Sign, 218-237 VerifySrvSig *)
Definition signKI (ki : keyInit) (srvPriv : bytes) : bytes := b64enc (edsign C srvPriv (kiJSON ki)).
Definition verifySrvSigKI (ki : keyInit) (sig srvPub : bytes) : res unit := checkSigP srvPub (kiJSON ki) sig "uid: server-signature invalid"%string.
(* uid/keyinit.go:239-256 sessionAnchor and 266-322 Message.KeyInit: the message, the hash of its public key and the private key.
   [dp] is the private key that is generated, [iv] the initialisation vector. *)
Definition newKeyInit (i : ident) (msgcount notafter notbefore : N) (fallback : bool) (repo mix nym : bytes) (now : N) (dp iv : bytes) : res (keyInit * bytes * bytes) :=
  if notafter <=? notbefore then Err "uid: invalid times"
  else if notafter <? now then Err "uid: expired"
  else if now + MaxNotAfter <? notafter then Err "uid: NOTAFTER too far in the future"
  else match b64dec (keHash (uSigKey (idUid i))) with
  | None => Err "base64"
  | Some kh =>
    match uRepoURIs (idUid i) with
    | [] => Panic
    | r :: _ =>
      if negb (beq repo r) then Err "uri: repoURI differs from msg.UIDContent.REPOURIS[0]"
      else if lenN kh <? 32 then Panic
      else
        let sa := mkSA mix nym [initDHKey C dp] in
        let m := saJSON sa in
        let c := mkKC ProtocolVersion msgcount notafter notbefore fallback (b64enc (sha512 C kh)) repo
                   (b64enc (iv ++ xorb m (ctr C (takeN 32 kh) iv (lenN m)))) (b64enc (sha512 C m)) in
        do s <- signWith (idSigPriv i) (kcJSON c);
        Ok (mkKI c s, keHash (initDHKey C dp), b64enc dp)
    end
  end.
(* uid/keyinit.go:324-330 checkV1_0 and 333-341 Check *)
Definition checkKI (ki : keyInit) : res unit :=
  if negb (beq (kcVersion (kiCont ki)) ProtocolVersion) then Err "uid: unknown ki.Contents.VERSION"
  else if negb (kcMsgCount (kiCont ki) =? 0) then Err "uid: ki.Contents.MSGCOUNT must be 0"
  else Ok tt.

(* ------------------------------------------------------------------ *)
(* keydb/keydb.go:33-66: own UID messages with their private keys, own KeyInit messages, fetched KeyInit messages *)
Record ownRow := mkOwn { owIdentity : bytes; owCount : N; owMsg : bytes; owSig : bytes; owEnc : bytes; owReply : bytes }.
Record pkiRow := mkPki { pkSigHash : bytes; pkHash : bytes; pkInit : bytes; pkSigPub : bytes; pkPriv : bytes; pkSrvSig : bytes }.
Record fkiRow := mkFki { fkSigHash : bytes; fkInit : bytes }.
Record iddb := mkIddb { dOwn : tbl ownRow; dPki : tbl pkiRow; dFki : tbl fkiRow }.
(* keydb/keydb.go:397-410 AddPrivateUID with uid/uid.go:495-497 PrivateSigKey and 531-533 PrivateEncKey, which panic without a key *)
Definition addOwn (i : ident) (d : iddb) : res iddb :=
  let u := idUid i in
  do s <- (if beq (keFunc (uSigKey u)) fED25519 then match idSigPriv i with Some k => Ok (b64enc k) | None => Panic end else Panic);
  do k <- pubKey u;
  do e <- priv32 k (idEncPriv i);
  if negb (sqlInt (uMsgCount u)) then Err "sql: uint64 values with high bit set are not supported"
  else Ok (mkIddb (tins (mkOwn (uIdentity u) (uMsgCount u) (uidJSON u) s (b64enc e) []) (dOwn d)) (dPki d) (dFki d)).
(* keydb/keydb.go:413-422 AddPrivateUIDReply *)
Definition addOwnReply (u : uidMsg) (r : uidReply) (d : iddb) : iddb :=
  mkIddb (tupd (fun _ x => beq (owMsg x) (uidJSON u)) (fun x => mkOwn (owIdentity x) (owCount x) (owMsg x) (owSig x) (owEnc x) (replyJSON r)) (dOwn d)) (dPki d) (dFki d).
(* keydb/keydb.go:425-430 DelPrivateUID *)
Definition delOwn (u : uidMsg) (d : iddb) : iddb := mkIddb (tdel (fun _ x => beq (owMsg x) (uidJSON u)) (dOwn d)) (dPki d) (dFki d).
(* keydb/keydb.go:433-451 GetPrivateIdentities *)
Definition ownIdentities (d : iddb) : list bytes := dedup (map (fun r => owIdentity (snd r)) (dOwn d)).
(* uid/keyentry.go:219-238 setPrivateKey, the key that signing or decryption uses afterwards *)
Definition setPriv32 (ke : keyEntry) (k : bytes) : res (option bytes) :=
  if beq (keFunc ke) fECDHE then (if lenN k =? 32 then Ok (Some k) else Err "cipher: Curve25519Key.SetPrivateKey(): wrong length")
  else if beq (keFunc ke) fED25519 then (if lenN k =? 64 then Ok None else Err "cipher: Ed25519Key.SetPrivateKey(): wrong length")
  else Err "uid: unknown FUNCTION in KeyEntry".
Definition setPriv64 (ke : keyEntry) (k : bytes) : res (option bytes) :=
  if beq (keFunc ke) fECDHE then (if lenN k =? 32 then Ok None else Err "cipher: Curve25519Key.SetPrivateKey(): wrong length")
  else if beq (keFunc ke) fED25519 then (if lenN k =? 64 then Ok (Some k) else Err "cipher: Ed25519Key.SetPrivateKey(): wrong length")
  else Err "uid: unknown FUNCTION in KeyEntry".
Definition b64res (s : bytes) : res bytes := match b64dec s with None => Err "base64" | Some b => Ok b end.
(* keydb/keydb.go:477-519 GetPrivateUID; private keys are set only if [withPriv] *)
Definition getOwn (identity : bytes) (withPriv : bool) (d : iddb) : res (ident * option uidReply) :=
  match tmax (fun r => beq (owIdentity r) identity) owCount (dOwn d) with
  | None => Err "keydb: no privkey for nym found"
  | Some (_, r) =>
    do u <- newJSONUid (owMsg r);
    do _ <- verifySelfSig C u;
    do (ep, sp) <- (if withPriv then
        do s <- b64res (owSig r);
        do sp <- setPriv64 (uSigKey u) s;
        do e <- b64res (owEnc r);
        do k <- pubKey u;
        do ep <- setPriv32 k e;
        Ok (ep, sp)
      else Ok (None, None));
    do p <- (if beq (owReply r) [] then Ok None else do p <- newJSONReply (owReply r); Ok (Some p));
    Ok (mkIdent u ep sp, p)
  end.
(* keydb/keydb.go:523-539 AddPrivateKeyInit, 542-557 GetPrivateKeyInit (None: sql.ErrNoRows) *)
Definition addPki (ki : keyInit) (h sigPub priv srvSig : bytes) (d : iddb) : iddb :=
  mkIddb (dOwn d) (tins (mkPki (kcSigKeyHash (kiCont ki)) h (kiJSON ki) sigPub priv srvSig) (dPki d)) (dFki d).
Definition getPki (h : bytes) (d : iddb) : res (option (keyInit * bytes * bytes)) :=
  match tmin (fun _ r => beq (pkHash r) h) (dPki d) with
  | None => Ok None
  | Some (_, r) => do ki <- newJSONKeyInit (pkInit r); Ok (Some (ki, pkSigPub r, pkPriv r))
  end.
(* keydb/keydb.go:560-566 AddPublicKeyInit, 570-584 GetPublicKeyInit: no ORDER BY, the row stored first *)
Definition addFki (ki : keyInit) (d : iddb) : iddb := mkIddb (dOwn d) (dPki d) (tins (mkFki (kcSigKeyHash (kiCont ki)) (kiJSON ki)) (dFki d)).
Definition getFki (h : bytes) (d : iddb) : res (option keyInit) :=
  match tmin (fun _ r => beq (fkSigHash r) h) (dFki d) with
  | None => Ok None
  | Some (_, r) => do ki <- newJSONKeyInit (fkInit r); Ok (Some ki)
  end.

(* ------------------------------------------------------------------ *)
(* cryptengine/uid.go:20-65 generate for a nym that is not a key server; [lastEntry] is the newest hash chain entry of the domain *)
Definition ceGenerate (pseudonym : bytes) (lastEntry : bytes -> res bytes) (yearLater : N) (sp ep : bytes) (d : iddb) : res iddb :=
  do (id, domain) <- mapPlus U pseudonym;
  do le <- lastEntry domain;
  do i <- create id false [] [] 1 le yearLater sp ep [];
  addOwn i d.
(* cryptengine/uid.go:67-125 registerOrUpdate.  [server] answers the request: an error, an answer of the wrong type (None), or the
   UIDMessageReply as JSON; [srvKeys] are the server's signature keys.  The second component is the database left behind. *)
Definition ceRegister (pseudonym : bytes) (server : uidMsg -> res (option bytes)) (srvKeys : list bytes) (d : iddb) : res unit * iddb :=
  match (do (id, domain) <- mapPlus U pseudonym;
         do (i, rep) <- getOwn id false d;
         match rep with
         | Some _ => Err "cryptengine: UID has already been registered"
         | None =>
           do a <- server (idUid i);
           match a with
           | None => Err "cryptengine: reply has the wrong type"
           | Some jsn => do r <- newJSONReply jsn; Ok (idUid i, r)
           end
         end) with
  | Err e => (Err e, d)
  | Panic => (Panic, d)
  | Ok (u, r) =>
    let d' := addOwnReply u r d in
    match srvKeys with
    | [] => (Panic, d')
    | k :: _ => (verifySrvSig C r u k, d')
    end
  end.
(* cryptengine/uid.go:133-150 genupdate *)
Definition ceGenupdate (pseudonym : bytes) (sp : bytes) (d : iddb) : res iddb :=
  do id <- imap U pseudonym;
  do (i, _) <- getOwn id true d;
  do n <- update i sp;
  addOwn n d.
(* cryptengine/uid.go:158-187 deleteUID, confirmed *)
Definition ceDelete (pseudonym : bytes) (d : iddb) : res iddb :=
  do id <- imap U pseudonym;
  do (i, _) <- getOwn id false d;
  Ok (delOwn (idUid i) d).
(* cryptengine/keyinit.go:17-83 addKeyInit; [now] is the time at which the ninety days begin and [now'] the time of the checks.
   The server returns its signatures, one for every KeyInit message, each possibly of the wrong type. *)
Definition ceAddKeyInit (pseudonym mix nym : bytes) (now now' : N) (dp iv : bytes) (server : keyInit -> res (option (list (option bytes)))) (srvKeys : list bytes) (d : iddb) : res iddb :=
  do (id, domain) <- mapPlus U pseudonym;
  do (i, _) <- getOwn id true d;
  do (ki, h, priv) <- newKeyInit i 0 (now + MaxNotAfter) 0 true domain mix nym now' dp iv;
  do a <- server ki;
  match a with
  | None => Err "cryptengine: could not add key inits"
  | Some [s] =>
    match s with
    | None => Err "cryptengine: signature is not a string"
    | Some sig =>
      match srvKeys with
      | [] => Panic
      | k :: _ => do _ <- verifySrvSigKI ki sig k; Ok (addPki ki h (kePub (uSigKey (idUid i))) priv sig d)
      end
    end
  | Some _ => Err "cryptengine: number of returned signatures does not equal number of sent key init messages"
  end.
(* cryptengine/keyinit.go:85-131 fetchKeyInit; [u] is the UID message found for the pseudonym.  The message is stored as received. *)
Definition ceFetchKeyInit (u : uidMsg) (server : bytes -> res (option bytes)) (d : iddb) : res iddb :=
  do h <- sigKeyHash (keHash (uSigKey u));
  do a <- server h;
  match a with
  | None => Err "cryptengine: could not fetch key init"
  | Some s => do ki <- newJSONKeyInit s; Ok (addFki ki d)
  end.
(* cryptengine/keystore.go:57-78 GetPrivateKeyEntry: the key entry with its private key *)
Definition cePrivateKeyEntry (h : bytes) (d : iddb) : res (keyEntry * bytes) :=
  do f <- getPki h d;
  match f with
  | None => Err "session: no key entry"
  | Some (ki, sigPub, priv) =>
    do ke <- keyEntryECDHE ki sigPub;
    do k <- b64res priv;
    do o <- setPriv32 ke k;
    match o with Some k => Ok (ke, k) | None => Err "uid" end
  end.
(* cryptengine/keystore.go:81-106 GetPublicKeyEntry: the key entry and the nym address *)
Definition cePublicKeyEntry (u : uidMsg) (d : iddb) : res (keyEntry * bytes) :=
  do h <- sigKeyHash (keHash (uSigKey u));
  do f <- getFki h d;
  match f with
  | None => Err "session: no key entry"
  | Some ki =>
    do sa <- sessionAnchor ki (kePub (uSigKey u));
    do ke <- anchorKey fECDHE (saKeys sa);
    Ok (ke, saNym sa)
  end.

(* ------------------------------------------------------------------ *)
(* Executions: any sequence of these commands, each with its randomness, clock and answers of servers.  A command that fails or
   panics before it writes leaves the database as it is. *)
Inductive iop :=
| IGenerate (pseudonym : bytes) (lastEntry : bytes -> res bytes) (yearLater : N) (sp ep : bytes)
| IRegister (pseudonym : bytes) (server : uidMsg -> res (option bytes)) (srvKeys : list bytes)
| IUpdate (pseudonym : bytes) (sp : bytes)
| IDelete (pseudonym : bytes)
| IAddKeyInit (pseudonym mix nym : bytes) (now now' : N) (dp iv : bytes) (server : keyInit -> res (option (list (option bytes)))) (srvKeys : list bytes)
| IFetchKeyInit (u : uidMsg) (server : bytes -> res (option bytes)).
Definition orElse (d : iddb) (r : res iddb) : iddb := match r with Ok d' => d' | _ => d end.
Definition istep (d : iddb) (o : iop) : iddb :=
  match o with
  | IGenerate p le yl sp ep => orElse d (ceGenerate p le yl sp ep d)
  | IRegister p srv ks => snd (ceRegister p srv ks d)
  | IUpdate p sp => orElse d (ceGenupdate p sp d)
  | IDelete p => orElse d (ceDelete p d)
  | IAddKeyInit p mix nym now now' dp iv srv ks => orElse d (ceAddKeyInit p mix nym now now' dp iv srv ks d)
  | IFetchKeyInit u srv => orElse d (ceFetchKeyInit u srv d)
  end.
Definition irun (ops : list iop) (d : iddb) : iddb := fold_left istep ops d.
Definition emptyIddb : iddb := mkIddb [] [] [].
(* what Go's types and the key generators ensure: 64-bit clocks, 64 and 32 bytes of private key *)
Definition iopWf (o : iop) : Prop :=
  match o with
  | IGenerate _ _ yl sp ep => yl < 2 ^ 64 /\ lenN sp = 64 /\ wfb sp /\ lenN ep = 32 /\ wfb ep
  | IUpdate _ sp => lenN sp = 64 /\ wfb sp
  | IAddKeyInit _ mix nym now _ dp iv _ _ => now + MaxNotAfter < 2 ^ 64 /\ wfb mix /\ wfb nym /\ lenN dp = 32 /\ wfb dp /\ lenN iv = 16 /\ wfb iv
  | _ => True
  end.
End Uid.
