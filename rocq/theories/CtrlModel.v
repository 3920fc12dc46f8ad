(* ctrlengine: contact commands, sending, fetching and processing of messages, upkeep.

   The helper programs mutecrypt and muteproto and the network are represented by events
   given from outside: one event per step of a loop says how these calls end.  Running out
   of events is an interruption of the program at that point.  Writes go through the
   methods of the message database (MsgDBModel.dexec). *)
From Verif Require Import Base Base64Model CodecModel IdentityModel SqlModel MsgDBModel CryptoModel MixModel MixClientModel.
Delimit Scope string_scope with string.
Local Open Scope N_scope.

Definition WhiteList : N := 0.
Definition GrayList : N := 1.
Definition BlackList : N := 2.

Section Ctrl.
  Variable U : Unicode.

  (* ---------------------------------------------------------------- *)
  (* ctrlengine/contact.go:198-223 add *)
  Definition cAdd (id contact fullName : bytes) (ctype : N) (db : msgdb) : res msgdb :=
    do contactMapped <- imap U contact;
    do (unmappedID, prevFullName, _) <- getContact U id contactMapped db;
    let fullName := if negb (isNil unmappedID) && isNil fullName then prevFullName else fullName in
    dexec U (DAddContact id contactMapped contact fullName ctype) db.
  (* ctrlengine/contact.go:240-278 contactAdd; [lookup] tells whether mutecryptAddContact succeeds.  The assignment in
     line 256 overwrites the parameters fullName and contactType. *)
  Definition contactAdd (id contact fullName : bytes) (ctype : N) (lookup : bool) (db : msgdb) : res msgdb :=
    do idMapped <- imap U id;
    do contactMapped <- imap U contact;
    do (unmappedID, fullName, ctype) <- getContact U idMapped contactMapped db;
    if negb (isNil unmappedID) then
      if negb (ctype =? WhiteList) then dexec U (DAddContact idMapped contactMapped unmappedID fullName WhiteList) db else Ok db
    else if lookup then cAdd idMapped contactMapped fullName ctype db
    else Err "mutecrypt error".
  (* ctrlengine/contact.go:280-302 contactEdit *)
  Definition contactEdit (id contact fullName : bytes) (db : msgdb) : res msgdb :=
    do idMapped <- imap U id;
    do contactMapped <- imap U contact;
    do (unmappedID, _, ctype) <- getContact U idMapped contactMapped db;
    if isNil unmappedID then Err "ctrlengine: contact unknown"
    else dexec U (DAddContact idMapped contactMapped contact fullName ctype) db.
  (* ctrlengine/contact.go:304-315 contactRemove *)
  Definition contactRemove (id contact : bytes) (db : msgdb) : res msgdb :=
    do idMapped <- imap U id;
    do contactMapped <- imap U contact;
    dexec U (DRemoveContact idMapped contactMapped) db.
  (* ctrlengine/contact.go:317-329 contactBlock *)
  Definition contactBlock (id contact : bytes) (db : msgdb) : res msgdb :=
    do idMapped <- imap U id;
    do contactMapped <- imap U contact;
    cAdd idMapped contactMapped [] BlackList db.
  (* ctrlengine/contact.go:331-358 contactUnblock *)
  Definition contactUnblock (id contact : bytes) (db : msgdb) : res msgdb :=
    do idMapped <- imap U id;
    do contactMapped <- imap U contact;
    do (unmappedID, fullName, ctype) <- getContact U idMapped contactMapped db;
    if negb (ctype =? BlackList) then Err "ctrlengine: not blocked"
    else dexec U (DAddContact idMapped contactMapped unmappedID fullName WhiteList) db.

  (* ---------------------------------------------------------------- *)
  (* ctrlengine/msg.go:106-194 msgAdd, after the message was read: text [msg] for [to] *)
  Definition msgAdd (from to msg : bytes) (sign : bool) (minD maxD now : Z) (db : msgdb) : res msgdb :=
    do fromMapped <- imap U from;
    do (prev, _) <- getNym U fromMapped db;
    if isNil prev then Err "user ID not found"
    else
      do toMapped <- imap U to;
      do (prev, _, ctype) <- getContact U fromMapped toMapped db;
      if isNil prev || (ctype =? GrayList) || (ctype =? BlackList) then Err "contact not found"
      else dexec U (DAddMessage fromMapped toMapped now true msg sign minD maxD) db.

  (* ctrlengine/msg.go:234-272 muteprotoDeliver and 326-356: what the caller makes of the outcome *)
  Inductive report := ROk | RResend | RFinal | RStop.
  Definition hasSuffix (s suf : bytes) : bool := (lenN suf <=? lenN s) && beq (dropN (lenN s - lenN suf) s) suf.
  (* serviceguard/client/errors.go:57 *)
  Definition clientErrFinal : bytes := str "client: final serviceguard error".
  (* protoengine/deliver.go:17-37 with the outcome of Deliver (MixClientModel) *)
  Definition reportOf (d : delivered) : report :=
    match dlErr d with
    | None => ROk
    | Some t => if moResend (dlState d) then RResend else if hasSuffix (trim t) clientErrFinal then RFinal else RStop
    end.
  (* One step of procOutQueue: OStop, an error before anything is written (address, token, muteproto create);
     OGo, the envelope [env] (used if the entry is not one yet), the time, whether the mix took the message, the report.
     RStop is any other error, or an interruption after the envelope was stored. *)
  Inductive oev := OStop | OGo (env : bytes) (now : Z) (taken : bool) (rep : report).
  (* ctrlengine/msg.go:274-360 procOutQueue: messages handed over, database, whether it ended without error *)
  Fixpoint procOut (my : bytes) (evs : list oev) (db : msgdb) : list N * msgdb * bool :=
    match getOutQueue U my db with
    | Ok None => ([], db, true)
    | Ok (Some (i, msg, nym, minD, maxD, envelope)) =>
      if isNil msg then ([], db, true)
      else match evs with
      | OGo env now taken rep :: evs' =>
        match (if envelope then Ok db else dexec U (DSetOutQueue i env) db) with
        | Ok db1 =>
          let handed := if (match rep with ROk => true | _ => taken end)
                        then match tget i (dbOut db) with Some o => [oMsgID o] | None => [] end else [] in
          let next := match rep with
                      | ROk => Some (DRemoveOutQueue i (now + minD))
                      | RResend => Some (DSetResend i)
                      | RFinal => Some (DRetractOutQueue i)
                      | RStop => None
                      end in
          match next with
          | None => (handed, db1, false)
          | Some o =>
            match dexec U o db1 with
            | Ok db2 => let '(h, db', d) := procOut my evs' db2 in (handed ++ h, db', d)
            | _ => (handed, db1, false)
            end
          end
        | _ => ([], db, false)
        end
      | _ => ([], db, false)
      end
    | _ => ([], db, false)
    end.
  (* ctrlengine/msg.go:420-468: encryption of the undelivered messages; None is a failure *)
  Fixpoint encLoop (my : bytes) (evs : list (option (bytes * bytes))) (db : msgdb) : msgdb * bool :=
    match getUndelivered U my db with
    | Ok None => (db, true)
    | Ok (Some (i, peer, text, sign, minD, maxD)) =>
      if isNil peer then (db, true)
      else match evs with
      | Some (enc, nym) :: evs' =>
        match dexec U (DAddOutQueue my i enc nym minD maxD) db with
        | Ok db' => encLoop my evs' db'
        | _ => (db, false)
        end
      | _ => (db, false)
      end
    | _ => (db, false)
    end.
  (* ctrlengine/msg.go:387-476 msgSend for one user *)
  Record sendEvs := mkSE { seOld : list oev; seEnc : list (option (bytes * bytes)); seNew : list oev }.
  Definition msgSend (my : bytes) (e : sendEvs) (db : msgdb) : list N * msgdb * bool :=
    match dexec U (DClearResend my) db with
    | Ok db =>
      let '(h1, db, d) := procOut my (seOld e) db in
      if negb d then (h1, db, false)
      else let '(db, d) := encLoop my (seEnc e) db in
        if negb d then (h1, db, false)
        else let '(h2, db, d) := procOut my (seNew e) db in (h1 ++ h2, db, d)
    | _ => ([], db, false)
    end.
  (* ctrlengine/msg.go:362-385 getNyms and 397, several users: the first error ends it *)
  Fixpoint msgSendAll (l : list (bytes * sendEvs)) (db : msgdb) : list N * msgdb * bool :=
    match l with
    | [] => ([], db, true)
    | (my, e) :: l' =>
      let '(h, db, d) := msgSend my e db in
      if d then let '(h', db, d) := msgSendAll l' db in (h ++ h', db, d) else (h, db, false)
    end.

  (* ---------------------------------------------------------------- *)
  (* ctrlengine/msg.go:478-647 muteprotoFetch.  [l] is the answer of the server, newest first: message ID, message, time of
     receipt.  The program is interrupted after [b] writes to the database.  Result: the database, and the time
     reported at the end of an uninterrupted run. *)
  Fixpoint fetchLoop (my c : bytes) (cache : list bytes) (l : list (bytes * bytes * Z)) (b : nat) (newTime : option Z) (db : msgdb) : msgdb * option Z :=
    match l with
    | [] => (db, Some (match newTime with Some t => t | None => 0%Z end))
    | (id, m, t) :: l' =>
      if existsb (beq id) cache then
        match b with
        | O => (db, None)
        | S _ => match dexec U (DRemoveCache my c id) db with
                 | Ok db' => (db', Some (match newTime with Some t => t | None => 0%Z end))
                 | _ => (db, None)
                 end
        end
      else match b with
      | S (S b') =>
        match dexec U (DAddCache my c id) db with
        | Ok db1 =>
          match dexec U (DAddInQueue my c t m) db1 with
          | Ok db2 => fetchLoop my c cache l' b' (Some (match newTime with Some t' => t' | None => t end)) db2
          | _ => (db1, None)
          end
        | _ => (db, None)
        end
      | S O => (match dexec U (DAddCache my c id) db with Ok db1 => db1 | _ => db end, None)
      | O => (db, None)
      end
    end.
  Definition muteprotoFetch (my c : bytes) (l : list (bytes * bytes * Z)) (b : nat) (db : msgdb) : msgdb * option Z :=
    match getCache U my c db with
    | Ok cache => fetchLoop my c cache l b None db
    | _ => (db, None)
    end.
  (* ctrlengine/msg.go:826-840 the account part of msgFetch *)
  Definition fetchAccount (my c : bytes) (l : list (bytes * bytes * Z)) (b : nat) (db : msgdb) : msgdb * bool :=
    match muteprotoFetch my c l b db with
    | (db, Some t) =>
      if (0 <? t)%Z then match dexec U (DSetAccountLastMsg my c t) db with Ok db' => (db', true) | _ => (db, false) end
      else (db, true)
    | (db, None) => (db, false)
    end.

  (* ctrlengine/msg.go:649-713 mutecryptDecrypt: error; message without pre-header key; sender and text *)
  Inductive dres := DErr | DNoKey | DGot (sender text : bytes).
  (* one step of procInQueue: outcome of the decryption, and whether an unknown sender is found on the key server *)
  Record iev := mkIev { ieDec : dres; ieLookup : bool }.
  Variable M : MixCrypto.
  (* ctrlengine/msg.go:728-760: opening an envelope; None is an error, Some None another nym *)
  Definition openEnvelope (my c msg : bytes) (db : msgdb) : res (option bytes) :=
    do message <- fromOpt (b64dec msg) "illegal base64 data";
    do (privkey, server, secret, _, _, _) <- getAccount U my c db;
    do box <- mailboxAddress (dropN 32 privkey) server;
    do (dec, nym) <- receiveFromMix M secret box message;
    Ok (if beq nym (sha256 M my) then Some dec else None).
  (* a call of a database method: database and whether it succeeded *)
  Definition tryOp (o : dop) (db : msgdb) : msgdb * bool := match dexec U o db with Ok db' => (db', true) | _ => (db, false) end.
  (* ctrlengine/msg.go:727-798 the body of the loop of procInQueue *)
  Definition inBody (e : iev) (i : N) (my c msg : bytes) (envelope : bool) (db : msgdb) : msgdb * bool :=
    if envelope then
      match openEnvelope my c msg db with
      | Ok None => tryOp (DDelInQueue i) db
      | Ok (Some dec) => tryOp (DSetInQueue i (b64enc dec)) db
      | _ => (db, false)
      end
    else match ieDec e with
    | DErr => (db, false)
    | DNoKey => tryOp (DDelInQueue i) db
    | DGot sender text =>
      if isNil sender then tryOp (DDelInQueue i) db
      else match getContact U my sender db with
      | Ok (contact, _, ctype) =>
        if isNil contact then
          match contactAdd my sender [] GrayList (ieLookup e) db with
          | Ok db' => tryOp (DRemoveInQueue i text sender false) db'
          | _ => (db, false)
          end
        else tryOp (DRemoveInQueue i text sender (ctype =? BlackList)) db
      | _ => (db, false)
      end
    end.
  (* ctrlengine/msg.go:715-801 procInQueue *)
  Fixpoint procIn (evs : list iev) (db : msgdb) : msgdb * bool :=
    match getInQueue db with
    | Ok None => (db, true)
    | Ok (Some (i, my, c, msg, envelope)) =>
      if isNil my then (db, true)
      else match evs with
      | [] => (db, false)
      | e :: evs' =>
        let (db', ok) := inBody e i my c msg envelope db in
        if ok then procIn evs' db' else (db', false)
      end
    | _ => (db, false)
    end.

End Ctrl.

(* ------------------------------------------------------------------ *)
(* ctrlengine/upkeep.go:35-59 checkExecution.  Times in nanoseconds since 1970, [past] in seconds as recorded; the result
   is the time to record, None if the task is not due.  Simplified: the sum of times does not overflow. *)
Definition checkExecution (period : Z) (past : res Z) (now : Z) : res (option Z) :=
  let sec := (now / 1000000000)%Z in
  if (period =? 0)%Z then Ok (Some sec)
  else do p <- past;
    if negb (p =? 0)%Z && (now <? p * 1000000000 + period)%Z then Ok None else Ok (Some sec).
(* ctrlengine/upkeep.go:324-399 upkeepAccounts: [work] tells whether the work on the accounts succeeds *)
Definition upkeepAccounts (U : Unicode) (my : bytes) (period now : Z) (work : bool) (db : msgdb) : res msgdb :=
  do t <- checkExecution period (getUpkeep U nUpAcc my db) now;
  match t with
  | None => Ok db
  | Some t => if work then dexec U (DSetUpkeepAccounts my t) db else Err "upkeep failed"
  end.
(* ctrlengine/upkeep.go:61-94 upkeepAll; the two checks read the clock one after the other *)
Definition upkeepAll (U : Unicode) (my : bytes) (period now now2 : Z) (work : bool) (db : msgdb) : res msgdb :=
  do t <- checkExecution period (getUpkeep U nUpAll my db) now;
  match t with
  | None => Ok db
  | Some t => do db <- upkeepAccounts U my period now2 work db; dexec U (DSetUpkeepAll my t) db
  end.
