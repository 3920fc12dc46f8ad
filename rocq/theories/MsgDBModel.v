(* msgdb: the message database (users, contacts, accounts, messages, queues, caches).

   A database is the record of its tables.  Every exported writing method is a function
   [msgdb -> res msgdb]: it runs as one SQLite transaction (or as one UPDATE followed by
   one INSERT of which at most one has an effect), so after an error or a crash the
   database is either unchanged or carries the whole effect.  Reading methods are
   functions [msgdb -> res _].
   Columns with values 0/1 are booleans.  Identities are lists of code points as in
   IdentityModel; they are stored as such.  Foreign keys are enforced and cascade as
   declared in msgdb/msgdb.go:24-155 (encdb opens the database with foreign keys on).
   Not modelled: the Attachments and Chunks tables (no method writes them), disk
   errors, log output. *)
From Verif Require Import Base Base64Model IdentityModel Maps SqlModel.
Delimit Scope string_scope with string.
Local Open Scope N_scope.

(* msgdb/msgdb.go:30-38 Nyms *)
Record nymRow := mkNym { nMapped : bytes; nUnmapped : bytes; nFull : bytes; nUpAll : Z; nUpAcc : Z }.
(* msgdb/msgdb.go:44-54 Contacts; cBlocked 0 white, 1 gray, 2 black *)
Record contactRow := mkContact { cMy : N; cMapped : bytes; cUnmapped : bytes; cFull : bytes; cBlocked : N }.
(* msgdb/msgdb.go:55-69 Accounts; contact 0 is "no contact" *)
Record accRow := mkAcc { aMy : N; aContact : N; aPriv : bytes; aServer : bytes; aSecret : bytes;
  aMin : Z; aMax : Z; aLoad : Z; aLast : Z }.
(* msgdb/msgdb.go:78-103 Messages *)
Record msgRow := mkMsg { mSelf : N; mPeer : N; mDir : bool; mToSend : bool; mSent : bool;
  mFrom : bytes; mTo : bytes; mDate : Z; mSubject : bytes; mText : bytes; mSign : bool;
  mMin : Z; mMax : Z; mRead : bool }.
(* msgdb/msgdb.go:125-137 OutQueue *)
Record oqRow := mkOq { oSelf : N; oMsgID : N; oMsg : bytes; oNym : bytes; oMin : Z; oMax : Z;
  oEnv : bool; oResend : bool }.
(* msgdb/msgdb.go:138-147 InQueue *)
Record iqRow := mkIq { iMy : N; iContact : N; iDate : Z; iMsg : bytes; iEnv : bool }.
(* msgdb/msgdb.go:148-155 MessageIDCache *)
Record idRow := mkId { dMy : N; dContact : N; dMsgID : bytes }.

Record msgdb := mkDB { dbKV : map_ bytes; dbNyms : tbl nymRow; dbContacts : tbl contactRow;
  dbAccounts : tbl accRow; dbMsgs : tbl msgRow; dbOut : tbl oqRow; dbIn : tbl iqRow; dbIds : tbl idRow }.
(* the tables of a database just created (msgdb/msgdb.go:269-291 without the version entry) *)
Definition emptyDB : msgdb := mkDB [] [] [] [] [] [] [] [].

Definition withKV kv db := mkDB kv (dbNyms db) (dbContacts db) (dbAccounts db) (dbMsgs db) (dbOut db) (dbIn db) (dbIds db).
Definition withNyms x db := mkDB (dbKV db) x (dbContacts db) (dbAccounts db) (dbMsgs db) (dbOut db) (dbIn db) (dbIds db).
Definition withContacts x db := mkDB (dbKV db) (dbNyms db) x (dbAccounts db) (dbMsgs db) (dbOut db) (dbIn db) (dbIds db).
Definition withAccounts x db := mkDB (dbKV db) (dbNyms db) (dbContacts db) x (dbMsgs db) (dbOut db) (dbIn db) (dbIds db).
Definition withMsgs x db := mkDB (dbKV db) (dbNyms db) (dbContacts db) (dbAccounts db) x (dbOut db) (dbIn db) (dbIds db).
Definition withOut x db := mkDB (dbKV db) (dbNyms db) (dbContacts db) (dbAccounts db) (dbMsgs db) x (dbIn db) (dbIds db).
Definition withIn x db := mkDB (dbKV db) (dbNyms db) (dbContacts db) (dbAccounts db) (dbMsgs db) (dbOut db) x (dbIds db).
Definition withIds x db := mkDB (dbKV db) (dbNyms db) (dbContacts db) (dbAccounts db) (dbMsgs db) (dbOut db) (dbIn db) x.

(* [need c e]: return error e unless c *)
Definition need (c : bool) (e : String.string) : res unit := if c then Ok tt else Err e.
Arguments need c e%string.
Definition fromOpt {A} (o : option A) (e : String.string) : res A := match o with Some a => Ok a | None => Err e end.
Arguments fromOpt {A} o e%string.
Definition isNil (b : bytes) : bool := match b with [] => true | _ => false end.

(* ------------------------------------------------------------------ *)
(* msgdb/keyvalue.go:14-36 AddValue (UPDATE, then INSERT if no row was updated) *)
Definition addValue (key value : bytes) (db : msgdb) : res msgdb :=
  do _ <- need (negb (isNil key)) "msgdb: key must be defined";
  do _ <- need (negb (isNil value)) "msgdb: value must be defined";
  Ok (withKV (mset key value (dbKV db)) db).
(* msgdb/keyvalue.go:39-53 GetValue *)
Definition getValue (key : bytes) (db : msgdb) : res bytes :=
  do _ <- need (negb (isNil key)) "msgdb: key must be defined";
  Ok (match mget key (dbKV db) with Some v => v | None => [] end).

(* ------------------------------------------------------------------ *)
(* queries used by many methods, msgdb/msgdb.go:156-206 *)
(* getNymUIDQuery: SELECT UID from Nyms WHERE MappedID=? *)
Definition qNymUID (mapped : bytes) (db : msgdb) : res N :=
  match tmin (fun _ n => beq (nMapped n) mapped) (dbNyms db) with
  | Some (i, _) => Ok i | None => Err "sql: no rows in result set" end.
(* getNymMappedQuery: SELECT MappedID FROM Nyms WHERE UID=? *)
Definition qNymMapped (uid : N) (db : msgdb) : res bytes :=
  match tget uid (dbNyms db) with Some n => Ok (nMapped n) | None => Err "sql: no rows in result set" end.
(* getContactUIDQuery: SELECT UID FROM Contacts WHERE MyID=? AND MappedID=? *)
Definition isContact (my : N) (mapped : bytes) (c : contactRow) : bool := (cMy c =? my) && beq (cMapped c) mapped.
Definition qContactUID (my : N) (mapped : bytes) (db : msgdb) : res N :=
  match tmin (fun _ c => isContact my mapped c) (dbContacts db) with
  | Some (i, _) => Ok i | None => Err "sql: no rows in result set" end.
(* getContactMappedQuery: SELECT MappedID FROM Contacts WHERE MyID=? AND UID=? *)
Definition qContactMapped (my uid : N) (db : msgdb) : res bytes :=
  match tmin (fun i c => (cMy c =? my) && (i =? uid)) (dbContacts db) with
  | Some (_, c) => Ok (cMapped c) | None => Err "sql: no rows in result set" end.

(* the display form used by GetNyms, GetContacts and GetMessage,
   e.g. msgdb/contacts.go:141-145: unmapped ID, or full name followed by "<ID>" *)
Definition display (full unmapped : bytes) : bytes :=
  if isNil full then unmapped else full ++ str " <" ++ unmapped ++ str ">".

Section DB.
  Variable U : Unicode.
  Definition mapped (id : bytes) : bool := isMapped U id.

  (* msgdb/nyms.go:16-51 AddNym.  The UNIQUE constraints on MappedID and UnmappedID are
     checked as SQLite does. *)
  Definition addNym (mappedID unmappedID fullName : bytes) (db : msgdb) : res msgdb :=
    do _ <- need (negb (isNil mappedID)) "msgdb: mappedID must be defined";
    do _ <- need (negb (isNil unmappedID)) "msgdb: unmappedID must be defined";
    do _ <- need (mapped mappedID) "ErrNotMapped";
    do mID <- imap U unmappedID;
    do _ <- need (beq mID mappedID) "msgdb: identity.Map(unmapped) != mapped";
    if thas (fun _ n => beq (nMapped n) mappedID) (dbNyms db) then
      do _ <- need (negb (thas (fun _ n => negb (beq (nMapped n) mappedID) && beq (nUnmapped n) unmappedID) (dbNyms db)))
                "UNIQUE constraint failed: Nyms.UnmappedID";
      Ok (withNyms (tupd (fun _ n => beq (nMapped n) mappedID)
            (fun n => mkNym (nMapped n) unmappedID fullName (nUpAll n) (nUpAcc n)) (dbNyms db)) db)
    else
      do _ <- need (negb (thas (fun _ n => beq (nUnmapped n) unmappedID) (dbNyms db)))
                "UNIQUE constraint failed: Nyms.UnmappedID";
      Ok (withNyms (tins (mkNym mappedID unmappedID fullName 0 0) (dbNyms db)) db).
  (* msgdb/nyms.go:54-71 GetNym; ("", "") if there is none *)
  Definition getNym (mappedID : bytes) (db : msgdb) : res (bytes * bytes) :=
    do _ <- need (mapped mappedID) "ErrNotMapped";
    Ok (match tmin (fun _ n => beq (nMapped n) mappedID) (dbNyms db) with
        | Some (_, n) => (nUnmapped n, nFull n) | None => ([], []) end).
  (* msgdb/nyms.go:74-101 GetNyms *)
  Definition getNyms (m : bool) (db : msgdb) : list bytes :=
    map (fun r => if m then nMapped (snd r) else display (nFull (snd r)) (nUnmapped (snd r))) (dbNyms db).
  (* DELETE FROM Nyms WHERE UID=? with ON DELETE CASCADE on all referring tables;
     deleting a message also deletes its out-queue entries *)
  Definition cascadeMsgs (gone : N -> msgRow -> bool) (db : msgdb) : msgdb :=
    withOut (tdel (fun _ o => thas (fun i m => gone i m && (i =? oMsgID o)) (dbMsgs db)) (dbOut db))
      (withMsgs (tdel gone (dbMsgs db)) db).
  Definition cascadeNym (uid : N) (db : msgdb) : msgdb :=
    let db := cascadeMsgs (fun _ m => mSelf m =? uid) db in
    mkDB (dbKV db) (tdel (fun i _ => i =? uid) (dbNyms db))
      (tdel (fun _ c => cMy c =? uid) (dbContacts db))
      (tdel (fun _ a => aMy a =? uid) (dbAccounts db))
      (dbMsgs db)
      (tdel (fun _ o => oSelf o =? uid) (dbOut db))
      (tdel (fun _ i => iMy i =? uid) (dbIn db))
      (tdel (fun _ d => dMy d =? uid) (dbIds db)).
  (* FOREIGN KEY(Peer) REFERENCES Contacts(UID) (no cascade), checked at statement end *)
  Definition peersOk (db : msgdb) : bool :=
    forallb (fun r => thas (fun i _ => i =? mPeer (snd r)) (dbContacts db)) (dbMsgs db).
  (* msgdb/nyms.go:104-119 DelNym *)
  Definition delNym (mappedID : bytes) (db : msgdb) : res msgdb :=
    do _ <- need (mapped mappedID) "ErrNotMapped";
    do (unmappedID, _) <- getNym mappedID db;
    do _ <- need (negb (isNil unmappedID)) "msgdb: nym unknown";
    do uid <- qNymUID mappedID db;
    let db' := cascadeNym uid db in
    do _ <- need (peersOk db') "FOREIGN KEY constraint failed";
    Ok db'.
  (* msgdb/nyms.go:122-131 GetUpkeepAll, 145-154 GetUpkeepAccounts *)
  Definition getUpkeep (sel : nymRow -> Z) (myID : bytes) (db : msgdb) : res Z :=
    do _ <- need (mapped myID) "ErrNotMapped";
    match tmin (fun _ n => beq (nMapped n) myID) (dbNyms db) with
    | Some (_, n) => Ok (sel n) | None => Err "sql: no rows in result set" end.
  (* msgdb/nyms.go:134-142 SetUpkeepAll *)
  Definition setUpkeepAll (myID : bytes) (t : Z) (db : msgdb) : res msgdb :=
    do _ <- need (mapped myID) "ErrNotMapped";
    Ok (withNyms (tupd (fun _ n => beq (nMapped n) myID)
          (fun n => mkNym (nMapped n) (nUnmapped n) (nFull n) t (nUpAcc n)) (dbNyms db)) db).
  (* msgdb/nyms.go:157-165 SetUpkeepAccounts *)
  Definition setUpkeepAccounts (myID : bytes) (t : Z) (db : msgdb) : res msgdb :=
    do _ <- need (mapped myID) "ErrNotMapped";
    Ok (withNyms (tupd (fun _ n => beq (nMapped n) myID)
          (fun n => mkNym (nMapped n) (nUnmapped n) (nFull n) (nUpAll n) t) (dbNyms db)) db).

  (* ---------------------------------------------------------------- *)
  (* msgdb/contacts.go:28-72 AddContact *)
  Definition addContact (myID mappedID unmappedID fullName : bytes) (ctype : N) (db : msgdb) : res msgdb :=
    do _ <- need (mapped myID) "ErrNotMapped";
    do _ <- need (mapped mappedID) "ErrNotMapped";
    do _ <- need (negb (isNil unmappedID)) "msgdb: unmappedID must be defined";
    do mID <- imap U unmappedID;
    do _ <- need (beq mID mappedID) "msgdb: identity.Map(unmapped) != mapped";
    do uid <- qNymUID myID db;
    if thas (fun _ c => isContact uid mappedID c) (dbContacts db) then
      Ok (withContacts (tupd (fun _ c => isContact uid mappedID c)
            (fun c => mkContact (cMy c) (cMapped c) unmappedID fullName ctype) (dbContacts db)) db)
    else Ok (withContacts (tins (mkContact uid mappedID unmappedID fullName ctype) (dbContacts db)) db).
  (* msgdb/contacts.go:75-112 GetContact; ("", "", white) if there is none *)
  Definition getContact (myID contactID : bytes) (db : msgdb) : res (bytes * bytes * N) :=
    do _ <- need (mapped myID) "ErrNotMapped";
    do _ <- need (mapped contactID) "ErrNotMapped";
    do uid <- qNymUID myID db;
    match tmin (fun _ c => isContact uid contactID c) (dbContacts db) with
    | None => Ok ([], [], 0)
    | Some (_, c) => if cBlocked c <=? 2 then Ok (cUnmapped c, cFull c, cBlocked c)
                     else Err "msgdb: unknown contact type found"
    end.
  (* msgdb/contacts.go:116-151 GetContacts *)
  Definition getContacts (myID : bytes) (blocked : bool) (db : msgdb) : res (list bytes) :=
    do _ <- need (mapped myID) "ErrNotMapped";
    do uid <- qNymUID myID db;
    Ok (map (fun r => display (cFull (snd r)) (cUnmapped (snd r)))
          (tsel (fun _ c => (cMy c =? uid) && (cBlocked c =? if blocked then 2 else 0)) (dbContacts db))).
  (* msgdb/contacts.go:155-172 RemoveContact *)
  Definition removeContact (myID contactID : bytes) (db : msgdb) : res msgdb :=
    do _ <- need (mapped myID) "ErrNotMapped";
    do _ <- need (mapped contactID) "ErrNotMapped";
    do uid <- qNymUID myID db;
    Ok (withContacts (tupd (fun _ c => isContact uid contactID c)
          (fun c => mkContact (cMy c) (cMapped c) (cUnmapped c) (cFull c) 1) (dbContacts db)) db).

  (* ---------------------------------------------------------------- *)
  (* The lookup of (MyID, ContactID) shared by the account, in-queue and cache methods,
     e.g. msgdb/accounts.go:23-43: contact "" is number 0. *)
  Definition pairIDs (myID contactID : bytes) (db : msgdb) : res (N * N) :=
    do _ <- need (mapped myID) "ErrNotMapped";
    do _ <- need (isNil contactID || mapped contactID) "ErrNotMapped";
    do mID <- qNymUID myID db;
    do cID <- (if isNil contactID then Ok 0 else qContactUID mID contactID db);
    Ok (mID, cID).
  Definition isAcc (m c : N) (a : accRow) : bool := (aMy a =? m) && (aContact a =? c).
  (* msgdb/accounts.go:16-51 AddAccount *)
  Definition addAccount (myID contactID privkey server secret : bytes) (minD maxD : Z) (db : msgdb) : res msgdb :=
    do (mID, cID) <- pairIDs myID contactID db;
    do _ <- need (negb (thas (fun _ a => isAcc mID cID a) (dbAccounts db))) "UNIQUE constraint failed: Accounts";
    Ok (withAccounts (tins (mkAcc mID cID (b64enc privkey) server (b64enc secret) minD maxD 0 0) (dbAccounts db)) db).
  (* msgdb/accounts.go:55-85 SetAccountTime *)
  Definition setAccountTime (myID contactID : bytes) (t : Z) (db : msgdb) : res msgdb :=
    do (mID, cID) <- pairIDs myID contactID db;
    Ok (withAccounts (tupd (fun _ a => isAcc mID cID a)
          (fun a => mkAcc (aMy a) (aContact a) (aPriv a) (aServer a) (aSecret a) (aMin a) (aMax a) t (aLast a)) (dbAccounts db)) db).
  (* msgdb/accounts.go:89-120 SetAccountLastMsg *)
  Definition setAccountLastMsg (myID contactID : bytes) (t : Z) (db : msgdb) : res msgdb :=
    do (mID, cID) <- pairIDs myID contactID db;
    Ok (withAccounts (tupd (fun _ a => isAcc mID cID a)
          (fun a => mkAcc (aMy a) (aContact a) (aPriv a) (aServer a) (aSecret a) (aMin a) (aMax a) (aLoad a) t) (dbAccounts db)) db).
  (* copy(array[:], b) into a zeroed 64-byte array *)
  Definition array64 (b : bytes) : bytes := takeN 64 (b ++ repeat 0 64).
  (* msgdb/accounts.go:123-177 GetAccount: privkey, server, secret, delays, last message time *)
  Definition getAccount (myID contactID : bytes) (db : msgdb) : res (bytes * bytes * bytes * Z * Z * Z) :=
    do (mID, cID) <- pairIDs myID contactID db;
    match tmin (fun _ a => isAcc mID cID a) (dbAccounts db) with
    | None => Err "sql: no rows in result set"
    | Some (_, a) =>
        do pk <- fromOpt (b64dec (aPriv a)) "illegal base64 data";
        do sc <- fromOpt (b64dec (aSecret a)) "illegal base64 data";
        Ok (array64 pk, aServer a, array64 sc, aMin a, aMax a, aLast a)
    end.
  (* msgdb/accounts.go:181-223 GetAccounts: "" first, then the contacts in row order *)
  Fixpoint contactNames (my : N) (l : list N) (db : msgdb) : res (list bytes) :=
    match l with
    | [] => Ok []
    | c :: l' => do n <- qContactMapped my c db; do r <- contactNames my l' db; Ok (n :: r)
    end.
  Definition getAccounts (myID : bytes) (db : msgdb) : res (list bytes) :=
    do _ <- need (mapped myID) "ErrNotMapped";
    do mID <- qNymUID myID db;
    let cs := map (fun r => aContact (snd r)) (tsel (fun _ a => aMy a =? mID) (dbAccounts db)) in
    do names <- contactNames mID (filter (fun c => negb (c =? 0)) cs) db;
    Ok (map (fun _ => []) (filter (fun c => c =? 0) cs) ++ names).
  (* msgdb/accounts.go:227-258 GetAccountTime *)
  Definition getAccountTime (myID contactID : bytes) (db : msgdb) : res Z :=
    do (mID, cID) <- pairIDs myID contactID db;
    match tmin (fun _ a => isAcc mID cID a) (dbAccounts db) with
    | None => Err "sql: no rows in result set" | Some (_, a) => Ok (aLoad a) end.

  (* ---------------------------------------------------------------- *)
  (* strings.SplitN(message, "\n", 2)[0] *)
  Definition subjectOf (message : bytes) : bytes :=
    match cutOn 10 message with Some (a, _) => a | None => message end.
  (* msgdb/messages.go:17-68 AddMessage *)
  Definition addMessage (selfID peerID : bytes) (date : Z) (sent : bool) (message : bytes) (sign : bool)
      (minD maxD : Z) (db : msgdb) : res msgdb :=
    do _ <- need (mapped selfID) "ErrNotMapped";
    do _ <- need (mapped peerID) "ErrNotMapped";
    do self <- qNymUID selfID db;
    do peer <- qContactUID self peerID db;
    let from := if sent then selfID else peerID in
    let to := if sent then peerID else selfID in
    Ok (withMsgs (tins (mkMsg self peer sent sent false from to date (subjectOf message) message sign minD maxD false)
          (dbMsgs db)) db).
  (* msgdb/messages.go:71-142 GetMessage: from, to, text, date *)
  Definition getMessage (myID : bytes) (msgNum : N) (db : msgdb) : res (bytes * bytes * bytes * Z) :=
    do _ <- need (mapped myID) "ErrNotMapped";
    match tget msgNum (dbMsgs db) with
    | None => Err "sql: no rows in result set"
    | Some m =>
        do selfID <- qNymMapped (mSelf m) db;
        do _ <- need (beq myID selfID) "msgdb: unknown message";
        do peerID <- qContactMapped (mSelf m) (mPeer m) db;
        do (nu, nf) <- getNym selfID db;
        do (cu, cf, _) <- getContact selfID peerID db;
        if mDir m then Ok (display nf nu, display cf cu, mText m, mDate m)
        else Ok (display cf cu, display nf nu, mText m, mDate m)
    end.
  (* msgdb/messages.go:145-150 ReadMessage *)
  Definition readMessage (msgNum : N) (db : msgdb) : res msgdb :=
    Ok (withMsgs (tupd (fun i _ => i =? msgNum)
      (fun m => mkMsg (mSelf m) (mPeer m) (mDir m) (mToSend m) (mSent m) (mFrom m) (mTo m) (mDate m) (mSubject m)
                      (mText m) (mSign m) (mMin m) (mMax m) true) (dbMsgs db)) db).
  (* msgdb/messages.go:153-174 DelMessage; out-queue entries cascade *)
  Definition delMessage (myID : bytes) (msgNum : N) (db : msgdb) : res msgdb :=
    do _ <- need (mapped myID) "ErrNotMapped";
    do self <- qNymUID myID db;
    let p := fun i m => (i =? msgNum) && (mSelf m =? self) in
    do _ <- need (thas p (dbMsgs db)) "msgdb: unknown msgnum";
    Ok (cascadeMsgs p db).
  (* msgdb/messages.go:189-247 GetMsgIDs: id, from, to, incoming, sent, date, subject, read *)
  Definition getMsgIDs (myID : bytes) (db : msgdb) : res (list (N * bytes * bytes * bool * bool * Z * bytes * bool)) :=
    do _ <- need (mapped myID) "ErrNotMapped";
    do uid <- qNymUID myID db;
    Ok (map (fun r => let m := snd r in
               (fst r, mFrom m, mTo m, negb (mDir m), mSent m, mDate m, mSubject m, mRead m))
         (tsel (fun _ m => mSelf m =? uid) (dbMsgs db))).
  (* msgdb/messages.go:251-284 GetUndeliveredMessage: None is the empty contactID *)
  Definition getUndelivered (myID : bytes) (db : msgdb) : res (option (N * bytes * bytes * bool * Z * Z)) :=
    do _ <- need (mapped myID) "ErrNotMapped";
    do mID <- qNymUID myID db;
    match tmin (fun _ m => (mSelf m =? mID) && mToSend m) (dbMsgs db) with
    | None => Ok None
    | Some (i, m) => do c <- qContactMapped mID (mPeer m) db; Ok (Some (i, c, mText m, mSign m, mMin m, mMax m))
    end.

  (* ---------------------------------------------------------------- *)
  Definition setToSend (b : bool) (m : msgRow) : msgRow :=
    mkMsg (mSelf m) (mPeer m) (mDir m) b (mSent m) (mFrom m) (mTo m) (mDate m) (mSubject m)
          (mText m) (mSign m) (mMin m) (mMax m) (mRead m).
  Definition setSent (d : Z) (m : msgRow) : msgRow :=
    mkMsg (mSelf m) (mPeer m) (mDir m) (mToSend m) true (mFrom m) (mTo m) d (mSubject m)
          (mText m) (mSign m) (mMin m) (mMax m) (mRead m).
  (* msgdb/outqueue.go:16-48 AddOutQueue; inserting an entry for a message that does not
     exist violates the foreign key *)
  Definition addOutQueue (myID : bytes) (msgID : N) (encMsg nymaddress : bytes) (minD maxD : Z) (db : msgdb) : res msgdb :=
    do _ <- need (mapped myID) "ErrNotMapped";
    do mID <- qNymUID myID db;
    do _ <- need (thas (fun i _ => i =? msgID) (dbMsgs db)) "FOREIGN KEY constraint failed";
    Ok (withOut (tins (mkOq mID msgID encMsg nymaddress minD maxD false false) (dbOut db))
         (withMsgs (tupd (fun i _ => i =? msgID) (setToSend false) (dbMsgs db)) db)).
  (* msgdb/outqueue.go:52-79 GetOutQueue: idx, msg, nymaddress, delays, envelope; None is
     the empty message *)
  Definition getOutQueue (myID : bytes) (db : msgdb) : res (option (N * bytes * bytes * Z * Z * bool)) :=
    do _ <- need (mapped myID) "ErrNotMapped";
    do mID <- qNymUID myID db;
    Ok (match tmin (fun _ o => (oSelf o =? mID) && negb (oResend o)) (dbOut db) with
        | None => None
        | Some (i, o) => Some (i, oMsg o, oNym o, oMin o, oMax o, oEnv o)
        end).
  (* msgdb/outqueue.go:83-88 SetOutQueue *)
  Definition setOutQueue (oqIdx : N) (envMsg : bytes) (db : msgdb) : res msgdb :=
    Ok (withOut (tupd (fun i _ => i =? oqIdx)
      (fun o => mkOq (oSelf o) (oMsgID o) envMsg (oNym o) (oMin o) (oMax o) true (oResend o)) (dbOut db)) db).
  (* msgdb/outqueue.go:92-120 RemoveOutQueue *)
  Definition removeOutQueue (oqIdx : N) (date : Z) (db : msgdb) : res msgdb :=
    do o <- fromOpt (tget oqIdx (dbOut db)) "sql: no rows in result set";
    Ok (withOut (tdel (fun i _ => i =? oqIdx) (dbOut db))
         (withMsgs (tupd (fun i _ => i =? oMsgID o) (setSent date) (dbMsgs db)) db)).
  (* msgdb/outqueue.go:124-152 RetractOutQueue *)
  Definition retractOutQueue (oqIdx : N) (db : msgdb) : res msgdb :=
    do o <- fromOpt (tget oqIdx (dbOut db)) "sql: no rows in result set";
    Ok (withOut (tdel (fun i _ => i =? oqIdx) (dbOut db))
         (withMsgs (tupd (fun i _ => i =? oMsgID o) (setToSend true) (dbMsgs db)) db)).
  Definition setResend (b : bool) (o : oqRow) : oqRow :=
    mkOq (oSelf o) (oMsgID o) (oMsg o) (oNym o) (oMin o) (oMax o) (oEnv o) b.
  (* msgdb/outqueue.go:155-160 SetResendOutQueue *)
  Definition setResendOutQueue (oqIdx : N) (db : msgdb) : res msgdb :=
    Ok (withOut (tupd (fun i _ => i =? oqIdx) (setResend true) (dbOut db)) db).
  (* msgdb/outqueue.go:163-175 ClearResendOutQueue *)
  Definition clearResendOutQueue (myID : bytes) (db : msgdb) : res msgdb :=
    do _ <- need (mapped myID) "ErrNotMapped";
    do mID <- qNymUID myID db;
    Ok (withOut (tupd (fun _ o => (oSelf o =? mID) && oResend o) (setResend false) (dbOut db)) db).

  (* ---------------------------------------------------------------- *)
  (* msgdb/inqueue.go:17-40 AddInQueue *)
  Definition addInQueue (myID contactID : bytes) (date : Z) (msg : bytes) (db : msgdb) : res msgdb :=
    do (mID, cID) <- pairIDs myID contactID db;
    Ok (withIn (tins (mkIq mID cID date msg true) (dbIn db)) db).
  (* msgdb/inqueue.go:43-73 GetInQueue: idx, myID, contactID, msg, envelope *)
  Definition getInQueue (db : msgdb) : res (option (N * bytes * bytes * bytes * bool)) :=
    match tmin (fun _ _ => true) (dbIn db) with
    | None => Ok None
    | Some (i, r) =>
        do myID <- qNymMapped (iMy r) db;
        do contactID <- (if 0 <? iContact r then qContactMapped (iMy r) (iContact r) db else Ok []);
        Ok (Some (i, myID, contactID, iMsg r, iEnv r))
    end.
  (* msgdb/inqueue.go:77-82 SetInQueue *)
  Definition setInQueue (iqIdx : N) (msg : bytes) (db : msgdb) : res msgdb :=
    Ok (withIn (tupd (fun i _ => i =? iqIdx) (fun r => mkIq (iMy r) (iContact r) (iDate r) msg false) (dbIn db)) db).
  (* msgdb/inqueue.go:86-133 RemoveInQueue *)
  Definition removeInQueue (iqIdx : N) (plainMsg fromID : bytes) (drop : bool) (db : msgdb) : res msgdb :=
    do _ <- need (mapped fromID) "ErrNotMapped";
    do r <- fromOpt (tget iqIdx (dbIn db)) "sql: no rows in result set";
    do cID <- qContactUID (iMy r) fromID db;
    do to <- qNymMapped (iMy r) db;
    let msgs := if drop then dbMsgs db
                else tins (mkMsg (iMy r) cID false false false fromID to (iDate r) (subjectOf plainMsg) plainMsg
                                 false 0 0 false) (dbMsgs db) in
    Ok (withIn (tdel (fun i _ => i =? iqIdx) (dbIn db)) (withMsgs msgs db)).
  (* msgdb/inqueue.go:136-141 DelInQueue *)
  Definition delInQueue (iqIdx : N) (db : msgdb) : res msgdb :=
    Ok (withIn (tdel (fun i _ => i =? iqIdx) (dbIn db)) db).

  (* ---------------------------------------------------------------- *)
  Definition isId (m c : N) (d : idRow) : bool := (dMy d =? m) && (dContact d =? c).
  (* msgdb/cache.go:14-45 AddMessageIDCache (the identities are checked before the
     message ID) *)
  Definition addCache (myID contactID messageID : bytes) (db : msgdb) : res msgdb :=
    do _ <- need (mapped myID) "ErrNotMapped";
    do _ <- need (isNil contactID || mapped contactID) "ErrNotMapped";
    do _ <- need (negb (isNil messageID)) "ErrNilMessageID";
    do (mID, cID) <- pairIDs myID contactID db;
    Ok (withIds (tins (mkId mID cID messageID) (dbIds db)) db).
  (* msgdb/cache.go:49-93 GetMessageIDCache: the keys of the returned map *)
  Definition getCache (myID contactID : bytes) (db : msgdb) : res (list bytes) :=
    do (mID, cID) <- pairIDs myID contactID db;
    Ok (map (fun r => dMsgID (snd r)) (tsel (fun _ d => isId mID cID d) (dbIds db))).
  (* msgdb/cache.go:97-136 RemoveMessageIDCache *)
  Definition removeCache (myID contactID messageID : bytes) (db : msgdb) : res msgdb :=
    do _ <- need (mapped myID) "ErrNotMapped";
    do _ <- need (isNil contactID || mapped contactID) "ErrNotMapped";
    do _ <- need (negb (isNil messageID)) "ErrNilMessageID";
    do (mID, cID) <- pairIDs myID contactID db;
    match tmin (fun _ d => isId mID cID d && beq (dMsgID d) messageID) (dbIds db) with
    | None => Err "sql: no rows in result set"
    | Some (e, _) => Ok (withIds (tdel (fun i d => isId mID cID d && (i <? e)) (dbIds db)) db)
    end.

  (* ---------------------------------------------------------------- *)
  (* Histories of writing operations.  A failed operation (error or crash before commit)
     leaves the database as it was. *)
  Inductive dop :=
  | DAddValue (key value : bytes)
  | DAddNym (mappedID unmappedID fullName : bytes)
  | DDelNym (mappedID : bytes)
  | DSetUpkeepAll (myID : bytes) (t : Z)
  | DSetUpkeepAccounts (myID : bytes) (t : Z)
  | DAddContact (myID mappedID unmappedID fullName : bytes) (ctype : N)
  | DRemoveContact (myID contactID : bytes)
  | DAddAccount (myID contactID privkey server secret : bytes) (minD maxD : Z)
  | DSetAccountTime (myID contactID : bytes) (t : Z)
  | DSetAccountLastMsg (myID contactID : bytes) (t : Z)
  | DAddMessage (selfID peerID : bytes) (date : Z) (sent : bool) (message : bytes) (sign : bool) (minD maxD : Z)
  | DReadMessage (msgNum : N)
  | DDelMessage (myID : bytes) (msgNum : N)
  | DAddOutQueue (myID : bytes) (msgID : N) (encMsg nymaddress : bytes) (minD maxD : Z)
  | DSetOutQueue (oqIdx : N) (envMsg : bytes)
  | DRemoveOutQueue (oqIdx : N) (date : Z)
  | DRetractOutQueue (oqIdx : N)
  | DSetResend (oqIdx : N)
  | DClearResend (myID : bytes)
  | DAddInQueue (myID contactID : bytes) (date : Z) (msg : bytes)
  | DSetInQueue (iqIdx : N) (msg : bytes)
  | DRemoveInQueue (iqIdx : N) (plainMsg fromID : bytes) (drop : bool)
  | DDelInQueue (iqIdx : N)
  | DAddCache (myID contactID messageID : bytes)
  | DRemoveCache (myID contactID messageID : bytes).

  Definition dexec (o : dop) : msgdb -> res msgdb :=
    match o with
    | DAddValue k v => addValue k v
    | DAddNym m u f => addNym m u f
    | DDelNym m => delNym m
    | DSetUpkeepAll m t => setUpkeepAll m t
    | DSetUpkeepAccounts m t => setUpkeepAccounts m t
    | DAddContact m c u f t => addContact m c u f t
    | DRemoveContact m c => removeContact m c
    | DAddAccount m c p s x a b => addAccount m c p s x a b
    | DSetAccountTime m c t => setAccountTime m c t
    | DSetAccountLastMsg m c t => setAccountLastMsg m c t
    | DAddMessage s p d t m g a b => addMessage s p d t m g a b
    | DReadMessage n => readMessage n
    | DDelMessage m n => delMessage m n
    | DAddOutQueue m i e n a b => addOutQueue m i e n a b
    | DSetOutQueue i e => setOutQueue i e
    | DRemoveOutQueue i d => removeOutQueue i d
    | DRetractOutQueue i => retractOutQueue i
    | DSetResend i => setResendOutQueue i
    | DClearResend m => clearResendOutQueue m
    | DAddInQueue m c d x => addInQueue m c d x
    | DSetInQueue i x => setInQueue i x
    | DRemoveInQueue i p f d => removeInQueue i p f d
    | DDelInQueue i => delInQueue i
    | DAddCache m c x => addCache m c x
    | DRemoveCache m c x => removeCache m c x
    end.
  Definition dstep (db : msgdb) (o : dop) : msgdb := match dexec o db with Ok db' => db' | _ => db end.
  Definition drun (ops : list dop) (db : msgdb) : msgdb := fold_left dstep ops db.
End DB.
