(* Listing, reading and deleting messages (mutectrl msg list, msg read, msg delete) and the
   input of messages as mail (msg add --mail): ctrlengine/msg.go:848-922 and
   ctrlengine/mail/mail.go.

   Simplified: names and identities are printed as they are stored; the formats of dates
   (time.RFC1123Z in UTC, time.RFC3339 in local time) are functions of the Unix time with the
   laws below; writing to the output does not fail. *)
From Verif Require Import Base Base64Model CodecModel IdentityModel Utf8Model MimeModel SqlModel MsgDBModel.
Local Open Scope N_scope.

Record Dates := mkDates {
  mailDate : Z -> bytes;     (* time.Unix(d, 0).UTC().Format(time.RFC1123Z), ctrlengine/msg.go:903 *)
  listDate : Z -> bytes;     (* time.Unix(d, 0).Format(time.RFC3339), ctrlengine/msg.go:882 *)
  mailDate_clean : forall d, clean (mailDate d) = true;
  listDate_plain : forall d c, In c (listDate d) -> c <> 9 /\ c <> 10
}.

Section View.
  Variable U : Unicode.
  Variable D : Dates.
  Variable mx : N.           (* maxContentLen of mime.QEncoding *)

  (* ctrlengine/msg.go:902-913: the text written by msgRead *)
  Definition mailView (from to : bytes) (date : Z) (msg : bytes) : bytes :=
    let '(subject, message) := splitMessage msg in
    headerLine (str "Date") (mailDate D date)
    ++ headerLine (str "From") from
    ++ headerLine (str "To") to
    ++ (if beq subject [] then [] else headerLine (str "Subject") (qEncode mx subject))
    ++ headerLine (str "MIME-Version") (str "1.0")
    ++ headerLine (str "Content-Type") (str "text/plain; charset=UTF-8")
    ++ CRLF
    ++ message.
  (* ctrlengine/msg.go:889-914 msgRead: the message is marked before it is written *)
  Definition msgRead (myID : bytes) (msgID : N) (db : msgdb) : res (bytes * msgdb) :=
    do idMapped <- imap U myID;
    do (from, to, msg, date) <- getMessage U idMapped msgID db;
    do db' <- readMessage msgID db;
    Ok (mailView from to date msg, db').

  (* ctrlengine/msg.go:857-886: one line of msgList *)
  Definition msgLine (r : N * bytes * bytes * bool * bool * Z * bytes * bool) : bytes :=
    let '(id, from, to, incoming, sent, date, subject, read) := r in
    [if incoming : bool then 62 else 60;
     if incoming : bool then (if read : bool then 82 else 78) else (if sent : bool then 83 else 80)]
    ++ [32] ++ decimal id ++ [9] ++ listDate D date ++ [9] ++ from ++ [9] ++ to ++ [9] ++ subject ++ [10].
  (* ctrlengine/msg.go:848-887 msgList *)
  Definition msgList (id : bytes) (db : msgdb) : res bytes :=
    do idMapped <- imap U id;
    do ids <- getMsgIDs U idMapped db;
    Ok (concat (map msgLine ids)).

  (* ctrlengine/msg.go:916-922 msgDelete *)
  Definition msgDelete (myID : bytes) (msgID : N) (db : msgdb) : res msgdb :=
    do idMapped <- imap U myID;
    delMessage U idMapped msgID db.
End View.

(* ctrlengine/mail/mail.go:20-44 Parse: recipient and message *)
Definition mailParse (s : bytes) : res (bytes * bytes) :=
  do (h, body) <- readHdr s;
  let recipient := hget (str "To") h in
  if beq recipient [] then Err "mail: 'To' not defined"
  else Ok (recipient, hget (str "Subject") h ++ [10] ++ body).

(* ctrlengine/msg.go:106-187 msgAdd: [input] is the text read from the file, the terminal or
   the standard input, [mailInput] the option --mail.  Simplified: attachments are ignored as in
   the code. *)
Definition msgAdd (U : Unicode) (from to : bytes) (mailInput : bool) (input : bytes) (now : Z) (sign : bool) (minD maxD : Z)
    (db : msgdb) : res msgdb :=
  do fromMapped <- imap U from;
  do (prev, _) <- getNym U fromMapped db;
  if isNil prev then Err "user ID not found"
  else
    do (to, msg) <- (if mailInput then mailParse input else Ok (to, input));
    do toMapped <- imap U to;
    do (prev, _, contactType) <- getContact U fromMapped toMapped db;
    if isNil prev || (contactType =? 1) || (contactType =? 2) then Err "contact not found"
    else addMessage U fromMapped toMapped now true msg sign minD maxD db.
