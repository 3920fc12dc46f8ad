(* UID messages as far as the message protocol uses them (uid/uid.go) and the
   encrypted message header (msg/header.go). *)
From Verif Require Import Base Base64Model CodecModel JsonModel CryptoModel StoreModel KeysModel MsgFormatModel.
Local Open Scope N_scope.

(* uid/uid.go:72-78 *)
Record chainlink := mkChain { clURI : list bytes; clLast : bytes; clAuth : bool; clDomains : list bytes; clIdentity : bytes }.
(* uid/uid.go:80-111 uidContent and Message in one record.  A nil and an empty slice are both [] (printed as null). *)
Record uidMsg := mkUid {
  uVersion : bytes; uMsgCount : N; uNotAfter : N; uNotBefore : N; uMix : bytes; uNym : bytes; uIdentity : bytes;
  uSigKey : keyEntry; uPubKeys : list keyEntry; uEscrow : option keyEntry; uLastEntry : bytes; uRepoURIs : list bytes;
  uFwdSec : bytes; uSuites : list bytes; uChain : option chainlink;
  uEscrowSig : bytes; uUserSig : bytes; uSelfSig : bytes; uLinkAuth : bytes }.
Definition jstrs (l : list bytes) : json := match l with [] => JNull | _ => JArr (map JStr l) end.
Definition jkes (l : list keyEntry) : json := match l with [] => JNull | _ => JArr (map keToJson l) end.
Definition jopt {A} (f : A -> json) (o : option A) : json := match o with Some a => f a | None => JNull end.
Definition chainToJson (c : chainlink) : json :=
  JObj [(str "AUTHORITATIVE", JBool (clAuth c)); (str "DOMAINS", jstrs (clDomains c)); (str "IDENTITY", JStr (clIdentity c));
        (str "LAST", JStr (clLast c)); (str "URI", jstrs (clURI c))].
(* uid/uid.go:406-427: keys in sorted order at every level *)
Definition contentToJson (u : uidMsg) : json :=
  JObj [(str "CHAINLINK", jopt chainToJson (uChain u)); (str "IDENTITY", JStr (uIdentity u)); (str "LASTENTRY", JStr (uLastEntry u));
        (str "MIXADDRESS", JStr (uMix u)); (str "MSGCOUNT", JN (uMsgCount u)); (str "NOTAFTER", JN (uNotAfter u));
        (str "NOTBEFORE", JN (uNotBefore u)); (str "NYMADDRESS", JStr (uNym u));
        (str "PREFERENCES", JObj [(str "CIPHERSUITES", jstrs (uSuites u)); (str "FORWARDSEC", JStr (uFwdSec u))]);
        (str "PUBKEYS", jkes (uPubKeys u)); (str "REPOURIS", jstrs (uRepoURIs u)); (str "SIGESCROW", jopt keToJson (uEscrow u));
        (str "SIGKEY", keToJson (uSigKey u)); (str "VERSION", JStr (uVersion u))].
Definition uidToJson (u : uidMsg) : json :=
  JObj [(str "ESCROWSIGNATURE", JStr (uEscrowSig u)); (str "LINKAUTHORITY", JStr (uLinkAuth u)); (str "SELFSIGNATURE", JStr (uSelfSig u));
        (str "UIDContent", contentToJson u); (str "USERSIGNATURE", JStr (uUserSig u))].
Definition contentJSON (u : uidMsg) : bytes := jprint (contentToJson u).
Definition uidJSON (u : uidMsg) : bytes := jprint (uidToJson u).

(* json.Unmarshal helpers for nested types; a missing or null member is the zero value *)
Fixpoint dec_list {A} (f : json -> option A) (l : list json) : option (list A) :=
  match l with
  | [] => Some []
  | v :: l' => match f v, dec_list f l' with Some a, Some b => Some (a :: b) | _, _ => None end
  end.
Definition dec_arr {A} (f : json -> option A) (o : option json) : option (list A) :=
  match o with None | Some JNull => Some [] | Some (JArr l) => dec_list f l | Some _ => None end.
Definition dec_ke (o : option json) : option keyEntry :=
  match o with None => Some keZero | Some v => keOfJson v end.
Definition dec_ptr {A} (f : json -> option A) (o : option json) : option (option A) :=
  match o with None | Some JNull => Some None | Some v => match f v with Some a => Some (Some a) | None => None end end.
Definition dec_obj (o : option json) : option (list (bytes * json)) :=
  match o with None | Some JNull => Some [] | Some (JObj l) => Some l | Some _ => None end.
Definition ostr (v : json) : option bytes := dec_str (Some v).
Notation "'doo' x <- m ; k" := (match m with Some x => k | None => None end)
  (at level 200, x pattern, m at level 100, k at level 200, right associativity).
Definition chainOfJson (v : json) : option chainlink :=
  match v with
  | JObj l =>
    doo a <- dec_bool (jfield (str "AUTHORITATIVE") l);
    doo d <- dec_arr ostr (jfield (str "DOMAINS") l);
    doo i <- dec_str (jfield (str "IDENTITY") l);
    doo la <- dec_str (jfield (str "LAST") l);
    doo u <- dec_arr ostr (jfield (str "URI") l);
    Some (mkChain u la a d i)
  | _ => None
  end.
(* uid/uid.go:388-394 NewJSON: plain json.Unmarshal, no checks *)
Definition uidOfJson (v : json) : option uidMsg :=
  doo top <- dec_obj (Some v);
  doo c <- dec_obj (jfield (str "UIDContent") top);
  doo pref <- dec_obj (jfield (str "PREFERENCES") c);
  doo ver <- dec_str (jfield (str "VERSION") c);
  doo cnt <- dec_uint 64 (jfield (str "MSGCOUNT") c);
  doo na <- dec_uint 64 (jfield (str "NOTAFTER") c);
  doo nb <- dec_uint 64 (jfield (str "NOTBEFORE") c);
  doo mix <- dec_str (jfield (str "MIXADDRESS") c);
  doo nym <- dec_str (jfield (str "NYMADDRESS") c);
  doo id <- dec_str (jfield (str "IDENTITY") c);
  doo sk <- dec_ke (jfield (str "SIGKEY") c);
  doo pk <- dec_arr keOfJson (jfield (str "PUBKEYS") c);
  doo esc <- dec_ptr keOfJson (jfield (str "SIGESCROW") c);
  doo le <- dec_str (jfield (str "LASTENTRY") c);
  doo ru <- dec_arr ostr (jfield (str "REPOURIS") c);
  doo fs <- dec_str (jfield (str "FORWARDSEC") pref);
  doo cs <- dec_arr ostr (jfield (str "CIPHERSUITES") pref);
  doo ch <- dec_ptr chainOfJson (jfield (str "CHAINLINK") c);
  doo es <- dec_str (jfield (str "ESCROWSIGNATURE") top);
  doo us <- dec_str (jfield (str "USERSIGNATURE") top);
  doo ss <- dec_str (jfield (str "SELFSIGNATURE") top);
  doo lk <- dec_str (jfield (str "LINKAUTHORITY") top);
  Some (mkUid ver cnt na nb mix nym id sk pk esc le ru fs cs ch es us ss lk).
Definition newJSONUid (s : bytes) : res uidMsg :=
  match jparse s with
  | None => Err "json"
  | Some v => match uidOfJson v with Some u => Ok u | None => Err "json: cannot unmarshal" end
  end.
(* uid/uid.go:324-336 PubHash, PubKey: index 0, panics on an empty list *)
Definition pubKey (u : uidMsg) : res keyEntry := match uPubKeys u with k :: _ => Ok k | [] => Panic end.
(* uid/uid.go:338-352 PublicKey *)
Definition publicKey (u : uidMsg) : res bytes :=
  do k <- pubKey u;
  match b64dec (kePub k) with None => Err "base64" | Some p => if lenN p =? 32 then Ok p else Panic end.

(* a UID message together with the private halves set in it *)
Record ident := mkIdent { idUid : uidMsg; idEncPriv : option bytes; idSigPriv : option bytes }.
(* uid/keyentry.go:177-187 PrivateKey32 *)
Definition priv32 (ke : keyEntry) (p : option bytes) : res bytes :=
  match p with None => Panic | Some b => if beq (keFunc ke) fECDHE then Ok b else Panic end.

(* msg/header.go:25-40 *)
Definition lengthEncryptedHeader : N := 7168.
Definition wiggleRoom : Z := 1316.
Definition StatusOK : N := 0.
Definition StatusReset : N := 1.
Definition StatusError : N := 2.
(* msg/header.go:42-60 *)
Record header := mkHeader {
  hSuite : bytes; hRecipPubHash : bytes; hRecipTempHash : bytes; hSender : bytes; hSessPub : keyEntry;
  hSenderPubHash : bytes; hSenderPub : keyEntry; hNext : option keyEntry; hSeen : option keyEntry; hNym : bytes;
  hMaxDelay : N; hSessCount : N; hMsgCount : N; hUID : bytes; hKeychain : bytes; hStatus : N; hPadding : bytes }.
(* json.Marshal of the struct: declaration order *)
Definition headerToJson (h : header) : json :=
  JObj [(str "Ciphersuite", JStr (hSuite h)); (str "RecipientPubHash", JStr (hRecipPubHash h));
        (str "RecipientTempHash", JStr (hRecipTempHash h)); (str "SenderIdentity", JStr (hSender h));
        (str "SenderSessionPub", keToJson (hSessPub h)); (str "SenderIdentityPubHash", JStr (hSenderPubHash h));
        (str "SenderIdentityPub", keToJson (hSenderPub h)); (str "NextSenderSessionPub", jopt keToJson (hNext h));
        (str "NextRecipientSessionPubSeen", jopt keToJson (hSeen h)); (str "NymAddress", JStr (hNym h));
        (str "MaxDelay", JN (hMaxDelay h)); (str "SenderSessionCount", JN (hSessCount h));
        (str "SenderMessageCount", JN (hMsgCount h)); (str "SenderUID", JStr (hUID h));
        (str "SenderLastKeychainHash", JStr (hKeychain h)); (str "Status", JN (hStatus h)); (str "Padding", JStr (hPadding h))].
Definition headerOfJson (v : json) : option header :=
  doo l <- dec_obj (Some v);
  doo a <- dec_str (jfield (str "Ciphersuite") l);
  doo b <- dec_str (jfield (str "RecipientPubHash") l);
  doo c <- dec_str (jfield (str "RecipientTempHash") l);
  doo d <- dec_str (jfield (str "SenderIdentity") l);
  doo e <- dec_ke (jfield (str "SenderSessionPub") l);
  doo f <- dec_str (jfield (str "SenderIdentityPubHash") l);
  doo g <- dec_ke (jfield (str "SenderIdentityPub") l);
  doo h <- dec_ptr keOfJson (jfield (str "NextSenderSessionPub") l);
  doo i <- dec_ptr keOfJson (jfield (str "NextRecipientSessionPubSeen") l);
  doo j <- dec_str (jfield (str "NymAddress") l);
  doo k <- dec_uint 64 (jfield (str "MaxDelay") l);
  doo m <- dec_uint 64 (jfield (str "SenderSessionCount") l);
  doo n <- dec_uint 64 (jfield (str "SenderMessageCount") l);
  doo o <- dec_str (jfield (str "SenderUID") l);
  doo p <- dec_str (jfield (str "SenderLastKeychainHash") l);
  doo q <- dec_uint 8 (jfield (str "Status") l);
  doo r <- dec_str (jfield (str "Padding") l);
  Some (mkHeader a b c d e f g h i j k m n o p q r).

Section Header.
Variable C : Crypto.
(* msg/padding with AES-256-CTR and a zero IV *)
Definition padGen (len : Z) (rand : bytes) : res bytes := paddingGenerate (fun k n => ctr C k (zeros 16) n) len rand.

(* msg/header.go:103-131: the amount of padding; None = refused *)
Definition EntryBase64Len : N := 204.   (* keyserver/hashchain/hashchain.go:22 *)
Definition IdMaxLen : N := 254.         (* uid/identity/identity.go:19 *)
Definition MaxNymAddress : N := 1568.   (* uid/length/length.go:22 *)
Definition MaxUIDMessage : N := 2004.   (* uid/length/length.go:25 *)
Definition headerPadLen (ident_ nym uidJ : bytes) (next seen : option keyEntry) (maxDelay sessCount msgCount : N) : res Z :=
  if IdMaxLen <? lenN ident_ then Err "msg: sender identity is too long"
  else if MaxNymAddress <? lenN nym then Err "msg: nym address is too long"
  else if MaxUIDMessage <? lenN uidJ then Err "msg: sender UIDMesssage is too long"
  else
    let n (x : N) := Z.of_N x in
    Ok (wiggleRoom + (n IdMaxLen - n (lenN ident_)) + (match next with None => 247 - 4 | _ => 0 end)
        + (match seen with None => 247 - 4 | _ => 0 end) + (n MaxNymAddress - n (lenN nym))
        + (20 - n (digitsCount maxDelay)) + (20 - n (digitsCount sessCount)) + (20 - n (digitsCount msgCount))
        + (n MaxUIDMessage - n (lenN uidJ)))%Z.
(* msg/header.go:68-145; [rand] feeds padding.Generate *)
Definition newHeader (from to : uidMsg) (recipientTempHash : bytes) (sessPub : keyEntry) (next seen : option keyEntry)
    (nym : bytes) (sessCount msgCount : N) (keychain : bytes) (rand : bytes) (status : N) : res header :=
  if negb (lenN keychain =? EntryBase64Len) then Err "msg: last hashchain entry does not have base64 length"
  else
    do toPub <- pubKey to;
    do fromPub <- pubKey from;
    let uidJ := uidJSON from in
    do padLen <- headerPadLen (uIdentity from) nym uidJ next seen 0 sessCount msgCount;
    do pad <- padGen (padLen / 2 + padLen mod 2)%Z rand;
    let p := hexenc pad in
    let p := if (padLen mod 2 =? 1)%Z then takeN (lenN p - 1) p else p in
    Ok (mkHeader DefaultCiphersuite (keHash toPub) recipientTempHash (uIdentity from) sessPub (keHash fromPub) fromPub
          next seen nym 0 sessCount msgCount uidJ keychain status p).

(* msg/header.go:147-170 and write 172-185: the serialised packet *)
Definition headerPacket (h : header) (recipientPub headerPriv nonce : bytes) : res bytes :=
  let enc := boxseal C (jprint (headerToJson h)) nonce recipientPub headerPriv in
  if negb (lenN enc mod 2 ^ 16 =? lengthEncryptedHeader) then Err "msg: encrypted header has wrong length"
  else Ok (nonce ++ be 2 (lenN enc mod 2 ^ 16) ++ enc).

(* msg/header.go:238-277 *)
Definition verifyDH (ke : keyEntry) (e : String.string) : res unit :=
  do _ <- keVerify C ke;
  if beq (keFunc ke) fECDHE then Ok tt else Err e.
Definition verifyOpt (o : option keyEntry) (e : String.string) : res unit :=
  match o with None => Ok tt | Some ke => verifyDH ke e end.
Definition headerVerify (h : header) : res unit :=
  do _ <- verifyDH (hSessPub h) "msg: wrong uid.SenderSessionPub.FUNCTION"%string;
  do _ <- verifyDH (hSenderPub h) "msg: wrong uid.SenderIdentityPub.FUNCTION"%string;
  do _ <- verifyOpt (hNext h) "msg: wrong uid.NextSenderSessionPub.FUNCTION"%string;
  verifyOpt (hSeen h) "msg: wrong uid.NextRecipientSessionPubSeen.FUNCTION"%string.

(* msg/header.go:208-226: the identities are tried in order; PublicKey32 and PrivateKey32 may panic *)
Fixpoint tryOpen (ids : list ident) (box nonce headerPub : bytes) : res (ident * bytes) :=
  match ids with
  | [] => Err "msg: no pre-header key found"
  | i :: ids' =>
    do ke <- pubKey (idUid i);
    do _ <- pub32 ke;
    do priv <- priv32 ke (idEncPriv i);
    match boxopen C box nonce headerPub priv with
    | Some m => Ok (i, m)
    | None => tryOpen ids' box nonce headerPub
    end
  end.
(* msg/header.go:187-236 *)
Definition readHeader (headerPub : bytes) (ids : list ident) (s : bytes) : res (ident * header) :=
  do (nonce, s) <- rd 24 s;
  do (len, s) <- rd_be 2 s;
  do (box, s) <- rd len s;
  do (i, jsn) <- tryOpen ids box nonce headerPub;
  match jparse jsn with
  | None => Err "json"
  | Some v =>
    match headerOfJson v with
    | None => Err "json: cannot unmarshal"
    | Some h => do _ <- headerVerify h; Ok (i, h)
    end
  end.
End Header.
