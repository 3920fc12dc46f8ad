(* Two parties that write to each other: the system built from two key stores, the calls of Encrypt
   (msg/encrypt.go:106-441) and Decrypt (msg/decrypt.go:102-582) on them, and the messages under way.
   Messages are delivered in any order and may be lost; a message that was decrypted is not delivered again, one for
   which Decrypt failed may be tried again.  Every call of Encrypt and Decrypt makes its own random choices.  Simplifications: each party talks to the other one only, with one UID message key each;
   KeyInit keys are published before the conversation starts (ctrlengine/uid.go publishes further ones later);
   messages that are presented twice, forged or modified are not part of this system (C03, C07 and C74 are about
   them); CleanupSessionKeys (msg/session/memstore/memstore.go:278-289) does not run. *)
From Verif Require Import Base Base64Model CodecModel JsonModel Maps CryptoModel StoreModel KeysModel MsgFormatModel HeaderModel ProtoModel.
Local Open Scope N_scope.

(* name, long-term private key, private keys of the published KeyInit messages *)
Record party := mkParty { pName : bytes; pSec : bytes; pKIs : list bytes }.
(* the UID message and the identity of a party (uid/uid.go:97-111): other fields are free *)
Definition isUid (C : Crypto) (p : party) (u : uidMsg) : Prop :=
  uIdentity u = pName p /\ exists ks, uPubKeys u = initDHKey C (pSec p) :: ks.
Definition isIdent (C : Crypto) (p : party) (i : ident) : Prop := isUid C p (idUid i) /\ idEncPriv i = Some (pSec p).

(* a message under way: arguments of the Encrypt call, the recipient's name of its session, its number in the session, the bytes *)
Record sent := mkSent { sArgs : encArgs; sSess : bytes; sNum : N; sWire : bytes }.
(* the two stores, the messages under way by sender, the private keys in use *)
Record conv := mkConv { cStore : bool -> store; cNet : bool -> list sent; cUsed : list bytes }.
Definition upd {A} (f : bool -> A) (p : bool) (x : A) : bool -> A := fun q => if Bool.eqb p q then x else f q.

Section Conv.
Variable C : Crypto.
Variable P : bool -> party.

(* key of the session state for the other party (msg/session/session.go:116-119) *)
Definition stateKey (p : bool) : bytes := calcStateKey C (dhpub C (pSec (P p))) (dhpub C (pSec (P (negb p)))).
(* the number that the next message of p gets (msg/encrypt.go:157-195 and 226) *)
Definition numOf (p : bool) (a : encArgs) (st : store) : N :=
  if eStatus a =? StatusReset then 0 else match mget (stateKey p) (states st) with Some ss => stMsgCount ss | None => 0 end.
(* the name that the recipient has for the session in which p sends (msg/session/session.go:123-132), in the state after sending *)
Definition sessOf (p : bool) (st : store) : bytes :=
  match mget (stateKey p) (states st) with
  | Some ss => calcKey C (hashText C (dhpub C (pSec (P (negb p))))) (hashText C (dhpub C (pSec (P p)))) (keHash (stRecipTemp ss)) (keHash (stSenderPub ss))
  | None => []
  end.
(* what the caller of Encrypt passes *)
Record sendOk (p : bool) (a : encArgs) (r : encRnd) : Prop := {
  sk_from : isIdent C (P p) (eFrom a);
  sk_to : isUid C (P (negb p)) (eTo a);
  sk_uid : uMsgCount (idUid (eFrom a)) < 2 ^ 64 /\ uNotAfter (idUid (eFrom a)) < 2 ^ 64 /\ uNotBefore (idUid (eFrom a)) < 2 ^ 64;
  sk_uidb : wfb (uidJSON (idUid (eFrom a)));
  sk_id : wfb (uIdentity (idUid (eFrom a)));
  sk_nym : wfb (eNym a);
  sk_kc : wfb (eKeychain a);
  sk_content : wfb (eContent a);
  sk_st : eStatus a < 256;
  sk_sig : forall k, eSigKey a = Some k -> pub32 (uSigKey (idUid (eFrom a))) = Ok (edpub C k);
  sk_nonce : lenN (rNonce r) = 24 /\ wfb (rNonce r);
  sk_iv : lenN (rIv r) = 16 /\ wfb (rIv r);
  sk_pad : wfb (rPad r);
  sk_hpad : wfb (rHdrPad r);
  sk_sess : lenN (rSessPriv r) = 32 /\ wfb (rSessPriv r) }.
(* an identity of somebody else, which does not open boxes for the party *)
Definition otherId (p : bool) (j : ident) : Prop :=
  exists ke pub priv, pubKey (idUid j) = Ok ke /\ pub32 ke = Ok pub /\ priv32 ke (idEncPriv j) = Ok priv /\
  forall txt nonce hpriv, boxopen C (boxseal C txt nonce (dhpub C (pSec (P p))) hpriv) nonce (dhpub C hpriv) priv = None.
(* what the caller of Decrypt passes *)
Record recvOk (p : bool) (ra : decArgs) : Prop := {
  rk_ids : exists pre i post, dIds ra = pre ++ i :: post /\ isIdent C (P p) i /\ Forall (otherId p) pre;
  rk_priv : lenN (dPriv ra) = 32 /\ wfb (dPriv ra);
  rk_num : numKeys (dNumKeys ra) < 2 ^ 63 }.
(* The message's key is stored (a new session gets the configured number of keys), or its number is at most a multiple
   of the configured number of keys that is at most 301 (msg/decrypt.go:361-369). *)
Definition storedKeys (nk : N) (sk : bytes) (st : store) : N := match mget sk (sessions st) with Some s => lenN (sRecv s) | None => nk end.
Definition inReach (ra : decArgs) (m : sent) (st : store) : Prop :=
  let nk := numKeys (dNumKeys ra) in
  sNum m < storedKeys nk (sSess m) st \/ exists k, sNum m <= k * nk /\ k * nk <= 301.

(* new private keys have public keys that were not in use *)
Definition fresh (l used : list bytes) : Prop := NoDup (map (dhpub C) (l ++ used)).
Inductive step : conv -> conv -> Prop :=
| StSend p a r c nym w :
    sendOk p a r -> numOf p a (cStore c p) + 1 < 2 ^ 63 -> fresh [rHeaderPriv r; rSessPriv r] (cUsed c) ->
    run (encrypt C a r) (cStore c p) = (Ok nym, w) ->
    step c (mkConv (upd (cStore c) p (wStore w)) (upd (cNet c) p (cNet c p ++ [mkSent a (sessOf p (wStore w)) (numOf p a (cStore c p)) (wOut w)]))
                   (rHeaderPriv r :: rSessPriv r :: cUsed c))
| StRecv p ra c l1 m l2 res w l :
    cNet c (negb p) = l1 ++ m :: l2 -> recvOk p ra -> fresh [dPriv ra] (cUsed c) ->
    run (receive C ra (sWire m)) (cStore c p) = (res, w) ->
    l = l1 ++ l2 \/ ((forall x, res <> Ok x) /\ l = l1 ++ m :: l2) ->
    step c (mkConv (upd (cStore c) p (wStore w)) (upd (cNet c) (negb p) l) (dPriv ra :: cUsed c))
| StLose p c l1 m l2 :
    cNet c p = l1 ++ m :: l2 -> step c (mkConv (cStore c) (upd (cNet c) p (l1 ++ l2)) (cUsed c)).

(* before the conversation: the parties' keys, nothing exchanged *)
Definition knownKeys : list bytes := pSec (P true) :: pSec (P false) :: pKIs (P true) ++ pKIs (P false).
Record start (c : conv) : Prop := {
  st_used : cUsed c = knownKeys;
  st_distinct : fresh [] knownKeys;
  st_net : forall p, cNet c p = [];
  st_sessions : forall p, sessions (cStore c p) = [];
  st_state : forall p, mget (stateKey p) (states (cStore c p)) = None;
  st_priv : forall p kb, In kb (pKIs (P p)) -> mget (hashText C (dhpub C kb)) (privKEs (cStore c p)) = Some (initDHKey C kb, kb);
  st_priv_only : forall p h v, mget h (privKEs (cStore c p)) = Some v -> exists kb, In kb (pKIs (P p)) /\ h = hashText C (dhpub C kb);
  st_pub : forall p k nym, mget (pName (P (negb p))) (pubKEs (cStore c p)) = Some (k, nym) -> exists kb, In kb (pKIs (P (negb p))) /\ k = initDHKey C kb }.
Inductive reach (c0 : conv) : conv -> Prop :=
| RStart : start c0 -> reach c0 c0
| RStep c c' : reach c0 c -> step c c' -> reach c0 c'.

(* SHA-512 is injective on the texts that this conversation hashes to look keys and sessions up *)
Definition hashed (used : list bytes) (s : bytes) : Prop :=
  (exists k, In k used /\ s = dhpub C k) \/
  (exists p a b, In a used /\ In b used /\
     s = hashText C (dhpub C (pSec (P p))) ++ hashText C (dhpub C (pSec (P (negb p)))) ++ hashText C (dhpub C a) ++ hashText C (dhpub C b)).
Definition noColl (used : list bytes) : Prop := forall s t, hashed used s -> hashed used t -> sha512 C s = sha512 C t -> s = t.
End Conv.
