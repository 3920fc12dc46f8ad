(* Key entries as objects with a cache: uid/keyentry.go:29-38, 98-249 over the key pairs of cipher/curve25519.go:16-64 and
   cipher/ed25519.go:15-67.  (StoreModel's keyEntry has only the exported fields.)
   Pointers: [None] is nil.  CIPHERSUITE is left out, nothing here depends on it. *)
From Verif Require Import Base Base64Model CryptoModel StoreModel KeysModel HeaderModel UidModel.
Local Open Scope N_scope.

Section KeyEntry.
Variable C : Crypto.

(* cipher/curve25519.go:16-19 *)
Record dhPair := mkDh { dhPub : option bytes; dhPriv : option bytes }.
(* cipher/ed25519.go:15-18, an unset key is an empty slice *)
Record edPair := mkEd { edPub : bytes; edPriv : bytes }.
(* uid/keyentry.go:29-38 *)
Record keyObj := mkObj { oFunc : bytes; oHash : bytes; oPubkey : bytes; oDh : option dhPair; oEd : option edPair; oPubSet : bool; oPrivSet : bool }.

(* cipher/curve25519.go:45-64 SetPublicKey and SetPrivateKey *)
Definition dhSetPub (k : bytes) (p : dhPair) : res unit * dhPair := if lenN k =? 32 then (Ok tt, mkDh (Some k) (dhPriv p)) else (Err "cipher: len(key) != 32", p).
Definition dhSetPriv (k : bytes) (p : dhPair) : res unit * dhPair := if lenN k =? 32 then (Ok tt, mkDh (dhPub p) (Some k)) else (Err "cipher: len(key) != 32", p).
(* cipher/ed25519.go:45-67 SetPublicKey and SetPrivateKey *)
Definition edSetPub (k : bytes) (p : edPair) : res unit * edPair := if lenN k =? 32 then (Ok tt, mkEd k (edPriv p)) else (Err "cipher: len(key) != 32", p).
Definition edSetPriv (k : bytes) (p : edPair) : res unit * edPair := if lenN k =? 64 then (Ok tt, mkEd (edPub p) k) else (Err "cipher: len(key) != 64", p).
(* cipher/ed25519.go:30-41: copied into an array of n bytes *)
Definition intoArray (n : N) (k : bytes) : bytes := takeN n (k ++ repeat 0 (N.to_nat n)).

(* uid/keyentry.go:132-138 NewJSONKeyEntry: the exported fields as they are in the JSON text *)
Definition loadedObj (func hash pub : bytes) : keyObj := mkObj func hash pub None None false false.
(* uid/keyentry.go:98-111 InitDHKey with cipher/curve25519.go:22-31; [None]: reading randomness fails *)
Definition oInitDH (z : option bytes) (o : keyObj) : res unit * keyObj :=
  match z with
  | None => (Err "rand", mkObj (str "ECDHE25519") (oHash o) (oPubkey o) None (oEd o) (oPubSet o) (oPrivSet o))
  | Some z => (Ok tt, mkObj (str "ECDHE25519") (b64enc (sha512 C (dhpub C z))) (b64enc (dhpub C z)) (Some (mkDh (Some (dhpub C z)) (Some z))) (oEd o) true true)
  end.
(* uid/keyentry.go:115-128 initSigKey with cipher/ed25519.go:21-27; the argument is the private key made of the randomness *)
Definition oInitSig (k : option bytes) (o : keyObj) : res unit * keyObj :=
  match k with
  | None => (Err "rand", mkObj (str "ED25519") (oHash o) (oPubkey o) (oDh o) None (oPubSet o) (oPrivSet o))
  | Some k => (Ok tt, mkObj (str "ED25519") (b64enc (sha512 C (intoArray 32 (edpub C k)))) (b64enc (intoArray 32 (edpub C k))) (oDh o) (Some (mkEd (edpub C k) k)) true true)
  end.
(* uid/keyentry.go:146-174 PublicKey32; Ok None is a nil pointer.  The errors of SetPublicKey are dropped. *)
Definition fillPub (o : keyObj) : res keyObj :=
  if oPubSet o then Ok o
  else match b64dec (oPubkey o) with
  | None => Panic
  | Some pk =>
    Ok (if beq (oFunc o) (str "ECDHE25519") then
          mkObj (oFunc o) (oHash o) (oPubkey o) (Some (snd (dhSetPub pk (match oDh o with Some p => p | None => mkDh None None end)))) (oEd o) true (oPrivSet o)
        else if beq (oFunc o) (str "ED25519") then
          mkObj (oFunc o) (oHash o) (oPubkey o) (oDh o) (Some (snd (edSetPub pk (match oEd o with Some p => p | None => mkEd [] [] end)))) true (oPrivSet o)
        else mkObj (oFunc o) (oHash o) (oPubkey o) (oDh o) (oEd o) true (oPrivSet o))
  end.
Definition publicKey32 (o : keyObj) : res (option bytes) * keyObj :=
  match fillPub o with
  | Ok o' =>
    (if beq (oFunc o') (str "ECDHE25519") then match oDh o' with Some p => Ok (dhPub p) | None => Panic end
     else if beq (oFunc o') (str "ED25519") then match oEd o' with Some p => Ok (Some (intoArray 32 (edPub p))) | None => Panic end
     else Panic, o')
  | Err e => (Err e, o)
  | Panic => (Panic, o)
  end.
(* uid/keyentry.go:203-215 PrivateKey *)
Definition privateKey (o : keyObj) : res bytes :=
  if negb (oPrivSet o) then Panic
  else if beq (oFunc o) (str "ECDHE25519") then
    match oDh o with Some p => match dhPriv p with Some k => Ok (b64enc k) | None => Panic end | None => Panic end
  else if beq (oFunc o) (str "ED25519") then match oEd o with Some p => Ok (b64enc (intoArray 64 (edPriv p))) | None => Panic end
  else Panic.
(* uid/keyentry.go:217-249 setPrivateKey and SetPrivateKey *)
Definition setPrivate (key : bytes) (o : keyObj) : res unit * keyObj :=
  if beq (oFunc o) (str "ECDHE25519") then
    let (r, p) := dhSetPriv key (match oDh o with Some p => p | None => mkDh None None end) in
    (r, mkObj (oFunc o) (oHash o) (oPubkey o) (Some p) (oEd o) (oPubSet o) (match r with Ok _ => true | _ => oPrivSet o end))
  else if beq (oFunc o) (str "ED25519") then
    let (r, p) := edSetPriv key (match oEd o with Some p => p | None => mkEd [] [] end) in
    (r, mkObj (oFunc o) (oHash o) (oPubkey o) (oDh o) (Some p) (oPubSet o) (match r with Ok _ => true | _ => oPrivSet o end))
  else (Err "uid: unknown FUNCTION in KeyEntry", o).
Definition oSetPrivate (s : bytes) (o : keyObj) : res unit * keyObj :=
  match b64dec s with None => (Err "base64", o) | Some key => setPrivate key o end.

(* what is done with an entry *)
Inductive kop := KInitDH (z : option bytes) | KInitSig (k : option bytes) | KPublic | KSetPriv (s : bytes).
Definition kstep (o : keyObj) (x : kop) : keyObj :=
  match x with
  | KInitDH z => snd (oInitDH z o)
  | KInitSig k => snd (oInitSig k o)
  | KPublic => snd (publicKey32 o)
  | KSetPriv s => snd (oSetPrivate s o)
  end.
End KeyEntry.
