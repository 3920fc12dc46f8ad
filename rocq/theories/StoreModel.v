(* Session key store (msg/session/session.go, msg/session/memstore/memstore.go) and
   the effect monad in which the message protocol is written.
   Simplifications: the store is a value (Go shares *session.State pointers between
   MemStore and its callers; a write through such a pointer that is not followed by
   SetSessionState is not visible in the model's store); MemStore.sessionKey, a
   test helper, is left out; GetPublicKeyEntry's nym address is stored with the
   entry (MemStore always answers "undefined", cryptengine answers the KeyInit's). *)
From Verif Require Import Base Base64Model CodecModel JsonModel Maps.
Local Open Scope N_scope.

(* uid/keyentry.go:29-38, exported fields; private keys are kept separately *)
Record keyEntry := mkKE { keSuite : bytes; keFunc : bytes; keHash : bytes; kePub : bytes }.

(* msg/session/session.go:15-25 *)
Record state := mkState {
  stSessCount : N; stMsgCount : N; stMaxRecv : N;
  stRecipTemp : keyEntry; stSenderPub : keyEntry;
  stNextSender : option keyEntry; stNextSeen : option keyEntry;
  stNym : bytes; stKeyInit : bool }.
(* memstore.go:15-20 and 22-26 *)
Record sess := mkSess { sRoot : bytes; sChain : bytes; sSend : list bytes; sRecv : list bytes }.
Record skey := mkSKey { skJson : bytes; skPriv : bytes; skClean : N }.
(* memstore.go:29-36 *)
Record store := mkStore {
  privKEs : map_ (keyEntry * bytes);      (* by HASH: public part, 32-byte private key *)
  pubKEs : map_ (keyEntry * bytes);       (* by identity: entry, nym address *)
  states : map_ state;
  sessions : map_ sess;
  skeys : map_ skey }.
Definition emptyStore : store := mkStore [] [] [] [] [].

(* Writes to the outside world: store operations and output. *)
Inductive op :=
| OSetState (key : bytes) (s : state)
| OStoreSession (sk rootHash chain : bytes) (send recv : list bytes)
| OAddSessionKey (hash jsn priv : bytes) (cleanup : N)
| ODelPriv (hash : bytes)
| ODelMsgKey (sk : bytes) (sender : bool) (i : N)
| OOutput (b : bytes).

Fixpoint set_nth (i : nat) (x : bytes) (l : list bytes) : list bytes :=
  match l with
  | [] => []
  | y :: l' => match i with O => x :: l' | S i' => y :: set_nth i' x l' end
  end.
Definition nthN (i : N) (l : list bytes) : bytes := nth (N.to_nat i) l [].

(* memstore.go:73-79, 82-107, 221-240, 243-253, 268-275 (the effect of each call that reports success) *)
Definition apply_op (o : op) (st : store) : store :=
  match o with
  | OSetState k s => mkStore (privKEs st) (pubKEs st) (mset k s (states st)) (sessions st) (skeys st)
  | OStoreSession sk rh ck send recv =>
    let s' := match mget sk (sessions st) with
              | None => mkSess rh ck send recv
              | Some s => mkSess (sRoot s) ck (sSend s ++ send) (sRecv s ++ recv)
              end in
    mkStore (privKEs st) (pubKEs st) (states st) (mset sk s' (sessions st)) (skeys st)
  | OAddSessionKey h j p c =>
    mkStore (privKEs st) (pubKEs st) (states st) (sessions st) (mset h (mkSKey j p c) (skeys st))
  | ODelPriv h =>
    match mget h (skeys st) with
    | None => st
    | Some k => mkStore (privKEs st) (pubKEs st) (states st) (sessions st) (mset h (mkSKey (skJson k) [] (skClean k)) (skeys st))
    end
  | ODelMsgKey sk sender i =>
    match mget sk (sessions st) with
    | None => st
    | Some s =>
      let s' := if sender then mkSess (sRoot s) (sChain s) (set_nth (N.to_nat i) [] (sSend s)) (sRecv s)
                else mkSess (sRoot s) (sChain s) (sSend s) (set_nth (N.to_nat i) [] (sRecv s)) in
      mkStore (privKEs st) (pubKEs st) (states st) (mset sk s' (sessions st)) (skeys st)
    end
  | OOutput _ => st
  end.
(* memstore.go:278-289 CleanupSessionKeys *)
Definition cleanupSessionKeys (t : N) (st : store) : store :=
  mkStore (privKEs st) (pubKEs st) (states st) (sessions st) (mfilter (fun _ k => negb (skClean k <? t)) (skeys st)).

(* The world seen by one call: store, bytes written so far, writes performed so far in order. *)
Record world := mkWorld { wStore : store; wOut : bytes; wTrace : list op }.
Definition out_of (o : op) : bytes := match o with OOutput b => b | _ => [] end.
Definition step_op (w : world) (o : op) : world :=
  mkWorld (apply_op o (wStore w)) (wOut w ++ out_of o) (wTrace w ++ [o]).

Definition M (A : Type) := world -> res A * world.
Definition mret {A} (a : A) : M A := fun w => (Ok a, w).
Definition mbind {A B} (m : M A) (f : A -> M B) : M B :=
  fun w => match m w with
           | (Ok a, w') => f a w'
           | (Err e, w') => (Err e, w')
           | (Panic, w') => (Panic, w')
           end.
Notation "'dom' x <- m ; k" := (mbind m (fun x => k))
  (at level 200, x pattern, m at level 100, k at level 200, right associativity).
Definition lift {A} (r : res A) : M A := fun w => (r, w).
Definition fail {A} (e : String.string) : M A := fun w => (Err e, w).
Delimit Scope string_scope with string.
Arguments fail {A} e%string w.
Definition ask {A} (f : store -> A) : M A := fun w => (Ok (f (wStore w)), w).
Definition emit (o : op) : M unit := fun w => (Ok tt, step_op w o).

(* memstore.go:65-70 *)
Definition getSessionState (k : bytes) : M (option state) := ask (fun st => mget k (states st)).
(* memstore.go:110-113 *)
Definition hasSession (sk : bytes) : M bool := ask (fun st => mhas sk (sessions st)).
(* memstore.go:82-88 *)
Definition storeSession (sk rh ck : bytes) (send recv : list bytes) : M unit :=
  if negb (lenN send =? lenN recv) then fail "memstore: len(send) != len(recv)"
  else emit (OStoreSession sk rh ck send recv).
Definition memSession (sk : bytes) (st : store) : res sess :=
  match mget sk (sessions st) with Some s => Ok s | None => Err "memstore: no session found" end.
(* memstore.go:134-140 *)
Definition numMessageKeys (sk : bytes) : M N :=
  fun w => (do s <- memSession sk (wStore w); Ok (lenN (sSend s)), w).
(* copy(array[:], k) != n, as used after base64.Decode in memstore.go:169-180, 191-198, 209-216:
   a longer value is cut to n bytes *)
Definition decode_fixed (n : N) (e1 e2 : String.string) (s : bytes) : res bytes :=
  match b64dec s with
  | None => Err e1
  | Some k => if lenN k <? n then Err e2 else Ok (takeN n k)
  end.
Arguments decode_fixed n e1%string e2%string s.
(* memstore.go:143-182 *)
Definition getMessageKeyR (sk : bytes) (sender : bool) (i : N) (st : store) : res bytes :=
  do s <- memSession sk st;
  if lenN (sSend s) <=? i then Err "memstore: message index out of bounds"
  else
    let key := if sender then nthN i (sSend s) else nthN i (sRecv s) in
    if beq key [] then Err "session: message key has already been used"
    else decode_fixed 64 "memstore: cannot decode key" "memstore: key has wrong length" key.
Definition getMessageKey (sk : bytes) (sender : bool) (i : N) : M bytes :=
  fun w => (getMessageKeyR sk sender i (wStore w), w).
(* memstore.go:185-200 *)
Definition getRootKeyHash (sk : bytes) : M bytes :=
  fun w => (do s <- memSession sk (wStore w);
            decode_fixed 64 "memstore: cannot decode root key hash" "memstore: root key hash has wrong length" (sRoot s), w).
(* memstore.go:203-218 *)
Definition getChainKey (sk : bytes) : M bytes :=
  fun w => (do s <- memSession sk (wStore w);
            decode_fixed 32 "memstore: cannot decode chain key" "memstore: chain key has wrong length" (sChain s), w).
(* memstore.go:221-240 *)
Definition delMessageKey (sk : bytes) (sender : bool) (i : N) : M unit :=
  dom n <- numMessageKeys sk;
  if n <=? i then fail "memstore: message index out of bounds"
  else emit (ODelMsgKey sk sender i).
(* memstore.go:116-122; None is ErrNoKeyEntry *)
Definition getPrivateKeyEntry (hash : bytes) : M (option (keyEntry * bytes)) := ask (fun st => mget hash (privKEs st)).
(* memstore.go:125-131 *)
Definition getPublicKeyEntry (identity : bytes) : M (keyEntry * bytes) :=
  fun w => (match mget identity (pubKEs (wStore w)) with Some p => Ok p | None => Err "session: no key entry found" end, w).
