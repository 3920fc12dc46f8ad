(* Key server hash chains on the client: splitting entries, synchronising, validating,
   searching and looking up (keyserver/hashchain, cryptengine/hashchain.go).

   The key server is an arbitrary function: every theorem quantifies over its answers.
   An answer is modelled after json decoding: a member of an answer is None when it is
   missing or has another type, and a position is the uint64 the code converts it to.
   A call returns its result together with the database it leaves behind, because
   entries and messages stored before an error stay stored.
   Identities are treated as byte strings when hashed (true for ASCII identities). *)
From Verif Require Import Base Base64Model CodecModel IdentityModel JsonModel CryptoModel Maps StoreModel KeysModel HeaderModel SqlModel KeyDBModel.
Local Open Scope N_scope.

(* keyserver/hashchain/hashchain.go:19-25 *)
Definition hcType : bytes := [1].
Definition EntryByteLen : N := 153.
Record hcEntry := mkHC { hcHash : bytes; hcTyp : bytes; hcNonce : bytes; hcHashID : bytes; hcCrUID : bytes; hcIndex : bytes }.
(* keyserver/hashchain/hashchain.go:29-52 SplitEntry *)
Definition splitEntry (entry : bytes) : res hcEntry :=
  match b64dec entry with
  | None => Err "base64"
  | Some e =>
    if negb (lenN e =? EntryByteLen) then Err "hashchain: entry does not have byte length 153"
    else
      let typ := takeN 1 (dropN 32 e) in
      if negb (beq typ hcType) then Err "hashchain: wrong type"
      else Ok (mkHC (takeN 32 e) typ (takeN 8 (dropN 33 e)) (takeN 32 (dropN 41 e)) (takeN 48 (dropN 73 e)) (dropN 121 e))
  end.

Section Chain.
Variable U : Unicode.
Variable C : Crypto.

(* cipher/ckdf.go:14-52 CKDF *)
Definition xorc (c : N) (b : bytes) : bytes := map (fun x => N.lxor x c) b.
Definition ckdf (nonce : bytes) : bytes * bytes :=
  let a := sha512 C nonce in
  let a1 := takeN 32 a ++ takeN 32 a in
  let a2 := dropN 32 a ++ dropN 32 a in
  (sha512 C (xorc 92 a1 ++ sha512 C (xorc 54 a2)), sha512 C (xorc 92 a2 ++ sha512 C (xorc 54 a1))).

(* ------------------------------------------------------------------ *)
(* cryptengine/hashchain.go:24-110 syncHashChain *)
Record lastReply := mkLast { lrEntry : option bytes; lrPos : option N }.
Record chainReply := mkChainRep { crEntries : option (list (option bytes)); crFirst : option N }.
(* lines 96-107: the loop over the received entries.  An error of the database ends it with success (line 105). *)
Fixpoint storeEntries (domain : bytes) (i hcPos : N) (es : list (option bytes)) (d : keydb) : res unit * keydb :=
  if hcPos <? i then (Ok tt, d)
  else match es with
  | [] => (Panic, d) (* hcEntries[i-hcFirstPos]: index out of range *)
  | None :: _ => (Err "cryptengine: fetch hash chain entry is not a string", d)
  | Some e :: es' =>
    match addChainEntry U domain i e d with
    | Ok d' => storeEntries domain (i + 1) hcPos es' d'
    | _ => (Ok tt, d)
    end
  end.
Definition syncHashChain (domain : bytes) (last : res lastReply) (fetch : N -> N -> res chainReply) (d : keydb) : res unit * keydb :=
  match last with
  | Err e => (Err e, d)
  | Panic => (Panic, d)
  | Ok l =>
    match lrEntry l with
    | None => (Err "cryptengine: fetch last hash chain entry reply has the wrong type", d)
    | Some _ =>
      match lrPos l with
      | None => (Panic, d) (* unchecked type assertion, line 42 *)
      | Some hcPos =>
        let go start :=
          match fetch start hcPos with
          | Err e => (Err e, d)
          | Panic => (Panic, d)
          | Ok r =>
            match crEntries r with
            | None => (Err "cryptengine: fetch hash chain entries reply has the wrong type", d)
            | Some es =>
              match crFirst r with
              | None => (Panic, d) (* unchecked type assertion, line 91 *)
              | Some first => storeEntries domain first hcPos es d
              end
            end
          end in
        match lastChainPos U domain d with
        | Some pos => if hcPos <=? pos then (Ok tt, d) else go (pos + 1)
        | None => go 0
        end
      end
    end
  end.

(* ------------------------------------------------------------------ *)
(* cryptengine/hashchain.go:115-182 validateHashChain *)
Definition hcImage (e : hcEntry) (prev : bytes) : bytes :=
  hcTyp e ++ hcNonce e ++ hcHashID e ++ hcCrUID e ++ hcIndex e ++ prev.
(* lines 126-156; [n] entries from position [i] on, [prev] is hashEntryNminus1 *)
Fixpoint validateLoop (domain : bytes) (n : nat) (i : N) (prev : bytes) (d : keydb) : res unit :=
  match n with
  | O => Ok tt
  | S n' =>
    do s <- chainEntry U domain i d;
    do e <- splitEntry s;
    if negb (beq (hcTyp e) hcType) then Err "cryptengine: invalid hash chain entry type"
    else if negb (beq (hcHash e) (sha256 C (hcImage e prev))) then Err "cryptengine: hash chain entry invalid"
    else validateLoop domain n' (i + 1) (hcHash e) d
  end.
(* lines 165-179 *)
Fixpoint checkReplies (domain : bytes) (max : N) (ids : list bytes) (d : keydb) : res unit :=
  match ids with
  | [] => Ok tt
  | id :: ids' =>
    do (_, rep) <- getPrivateUID C id d;
    do _ <- match rep with
            | Some r =>
              if rpHCPos r <=? max
              then do s <- chainEntry U domain (rpHCPos r) d;
                   if beq s (rpHCEntry r) then Ok tt else Err "cryptengine: hash chain entry differs from UIDMessageReply"
              else Ok tt
            | None => Ok tt
            end;
    checkReplies domain max ids' d
  end.
Definition validateHashChain (domain : bytes) (d : keydb) : res unit :=
  match lastChainPos U domain d with
  | None => Err "no hash chain entries found for domain"
  | Some max =>
    do _ <- validateLoop domain (N.to_nat (max + 1)) 0 (repeat 0 32) d;
    do ids <- privIdentitiesForDomain U domain d;
    checkReplies domain max ids d
  end.

(* ------------------------------------------------------------------ *)
(* cipher/aes256/aes256.go:48-74 CBCDecrypt and 103-122 CTRDecrypt; wrong lengths panic *)
Definition cbcDecrypt (key ct : bytes) : res bytes :=
  if negb (lenN key =? 32) then Panic
  else if lenN ct <? 16 then Panic
  else if negb (lenN (dropN 16 ct) mod 16 =? 0) then Panic
  else Ok (cbcdec C key (takeN 16 ct) (dropN 16 ct)).
Definition ctrDecrypt (key ct : bytes) : res bytes :=
  if negb (lenN key =? 32) then Panic
  else if lenN ct <? 16 then Panic
  else Ok (xorb (dropN 16 ct) (ctr C key (takeN 16 ct) (lenN (dropN 16 ct)))).
(* uid/uid.go:623-636 MessageReply.Decrypt *)
Definition replyDecrypt (r : uidReply) (uidHash : bytes) : res (bytes * uidMsg) :=
  match b64dec (rpEnc r) with
  | None => Err "base64"
  | Some b =>
    if lenN b <? 32 then Panic
    else do m <- ctrDecrypt uidHash (dropN 32 b);
         do u <- newJSONUid m;
         Ok (takeN 32 b, u)
  end.
(* uid/uid.go:293-306 Encrypt: the two hashes; the ciphertext is not used by the callers below *)
Definition uidHash (u : uidMsg) : bytes := sha256 C (uidJSON u).
Definition uidIndex (u : uidMsg) : bytes := sha256 C (uidHash u).
(* uid/uid.go:639-674 VerifySrvSig; the comparison in line 649 compares a value with itself *)
Definition verifySrvSig (r : uidReply) (u : uidMsg) (srvPub : bytes) : res unit :=
  do (idx, _) <- replyDecrypt r (uidHash u);
  if negb (beq idx (uidIndex u)) then Err "uid: message mismatch"
  else match b64dec (rpSrvSig r) with
  | None => Err "base64"
  | Some sig =>
    match b64dec srvPub with
    | None => Err "base64"
    | Some pk =>
      if negb (lenN pk =? 32) then Err "cipher: Ed25519Key.SetPublicKey(): wrong length"
      else if edverify C pk (entryJSON r) sig then Ok tt else Err "uid: server-signature invalid"
    end
  end.
(* uid/uid.go:550-568 Localpart and Domain panic on an identity that cannot be split *)
Definition uidSplit (u : uidMsg) : res (bytes * bytes) := match split (uIdentity u) with Ok x => Ok x | _ => Panic end.
Definition keyserver : bytes := str "keyserver".
(* cryptengine/hashchain.go:240-264 verifyServerSig *)
Definition verifyServerSig (u : uidMsg) (r : uidReply) (pos : N) (d : keydb) : res unit :=
  do (lp, dm) <- uidSplit u;
  if beq lp keyserver && (uMsgCount u =? 0) then Ok tt
  else
    do f <- getPublicUID (keyserver ++ [64] ++ dm) pos d;
    match f with
    | None => Err "cryptengine: no keyserver signature key found for domain"
    | Some (srv, _) => verifySrvSig r u (kePub (uSigKey srv))
    end.

(* cryptengine/hashchain.go:330-374 and 458-502: fetch, decrypt, check and store the UID message of one entry *)
Definition fetchStore (fetch : bytes -> res uidReply) (mappedID : bytes) (i : N) (e : hcEntry) (d : keydb) : res keydb :=
  let idkey := sha256 C (snd (ckdf (hcNonce e)) ++ mappedID) in
  do r <- fetch (hcIndex e);
  do h <- cbcDecrypt idkey (hcCrUID e);
  do (idx, u) <- replyDecrypt r h;
  if negb (beq idx (hcIndex e)) then Err "cryptengine: index != UIDIndex"
  else
    do _ <- verifySelfSig C u;
    do _ <- verifyServerSig u r i d;
    addPublicUID u i d.
Definition entryFor (mappedID : bytes) (e : hcEntry) : bool := beq (hcHashID e) (sha256 C (fst (ckdf (hcNonce e)) ++ mappedID)).

(* uid/identity/identity.go:57-73 MapPlus *)
Definition mapPlus (identity : bytes) : res (bytes * bytes) :=
  if MaxLen <? utf8len identity then Err "identity: maximum total length is 254"
  else
    do (lp, domain) <- split identity;
    do mlp <- mapLocalpart U lp;
    Ok (mlp ++ [64] ++ mapDomain U domain, mapDomain U domain).
(* cryptengine/hashchain.go:286-383, the loop of searchHashChain *)
Fixpoint searchLoop (searchOnly : bool) (fetch : bytes -> res uidReply) (mappedID domain : bytes) (n : nat) (i : N) (matched : bool) (d : keydb) : res unit * keydb :=
  match n with
  | O => (if matched then Ok tt else Err "no hash chain entry found of id", d)
  | S n' =>
    match (do s <- chainEntry U domain i d; splitEntry s) with
    | Err e => (Err e, d)
    | Panic => (Panic, d)
    | Ok e =>
      if negb (beq (hcTyp e) hcType) then (Err "cryptengine: invalid hash chain entry type", d)
      else if negb (entryFor mappedID e) then searchLoop searchOnly fetch mappedID domain n' (i + 1) matched d
      else if searchOnly then (Ok tt, d)
      else match getPublicUID mappedID i d with
      | Err e => (Err e, d)
      | Panic => (Panic, d)
      | Ok f =>
        if match f with Some (_, pos) => pos =? i | None => false end
        then searchLoop searchOnly fetch mappedID domain n' (i + 1) true d
        else match fetchStore fetch mappedID i e d with
        | Ok d' => searchLoop searchOnly fetch mappedID domain n' (i + 1) true d'
        | Err e => (Err e, d)
        | Panic => (Panic, d)
        end
      end
    end
  end.
(* cryptengine/hashchain.go:269-384 searchHashChain; the second component is the database left behind *)
Definition searchHashChain (id : bytes) (searchOnly : bool) (fetch : bytes -> res uidReply) (d : keydb) : res unit * keydb :=
  match mapPlus id with
  | Err e => (Err e, d)
  | Panic => (Panic, d)
  | Ok (mappedID, domain) =>
    match lastChainPos U domain d with
    | None => (Err "no hash chain entries found for domain", d)
    | Some max => searchLoop searchOnly fetch mappedID domain (N.to_nat (max + 1)) 0 false d
    end
  end.
(* cryptengine/hashchain.go:414-511, the loop of lookupHashChain over the positions the server sent *)
Fixpoint lookupLoop (fetch : bytes -> res uidReply) (mappedID domain : bytes) (l : list (option N)) (matched : bool) (d : keydb) : res unit * keydb :=
  match l with
  | [] => (if matched then Ok tt else Err "lookup found no entry of id", d)
  | None :: _ => (Err "cryptengine: lookup ID reply position entry has the wrong type", d)
  | Some i :: l' =>
    match (do s <- chainEntry U domain i d; splitEntry s) with
    | Err e => (Err e, d)
    | Panic => (Panic, d)
    | Ok e =>
      if negb (beq (hcTyp e) hcType) then (Err "cryptengine: invalid entry type", d)
      else if negb (entryFor mappedID e) then (Err "cryptengine: lookup ID returned bogus position", d)
      else match getPublicUID mappedID i d with
      | Err e => (Err e, d)
      | Panic => (Panic, d)
      | Ok f =>
        if match f with Some (_, pos) => pos =? i | None => false end
        then lookupLoop fetch mappedID domain l' true d
        else match fetchStore fetch mappedID i e d with
        | Ok d' => lookupLoop fetch mappedID domain l' true d'
        | Err e => (Err e, d)
        | Panic => (Panic, d)
        end
      end
    end
  end.
(* cryptengine/hashchain.go:386-512 lookupHashChain; [positions] is the server's answer to the mapped identity *)
Definition lookupHashChain (id : bytes) (positions : bytes -> res (option (list (option N)))) (fetch : bytes -> res uidReply) (d : keydb) : res unit * keydb :=
  match mapPlus id with
  | Err e => (Err e, d)
  | Panic => (Panic, d)
  | Ok (mappedID, domain) =>
    match positions mappedID with
    | Err e => (Err e, d)
    | Panic => (Panic, d)
    | Ok None => (Err "cryptengine: lookup ID reply has the wrong type", d)
    | Ok (Some l) => lookupLoop fetch mappedID domain l false d
    end
  end.
End Chain.
