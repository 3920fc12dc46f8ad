(* How mutectrl hands the passphrase of the key database to mutecrypt, and the private key of a mailbox to muteproto. *)
From Verif Require Import Base Base64Model CryptoModel Maps KeyfileModel ScanModel.
Local Open Scope N_scope.

(* ctrlengine/db.go:307-317 (the same lines in db.go:355-365, 399-409, 438-448, msg.go:75-85, 669-679, uid.go:292-302, 468-478 and
   upkeep.go:423-433, 459-469): the passphrase is written into a pipe, without a line break, and the pipe is closed before mutecrypt is
   started.  Nobody reads until then, and the error of Write is dropped: if the passphrase does not fit into the pipe (65536 bytes on
   Linux), Write does not return (None).  mutecrypt reads a line from it; [cut] are the pieces in which it is read. *)
Definition handed (cut : bytes -> list bytes) (p : bytes) : option (res bytes) :=
  if 65536 <? lenN p then None
  else Some (do (q, _) <- askOpen (cut p); Ok q).
(* How mutectrl gets a passphrase to open the databases: ctrlengine/ctrlengine.go:1384-1397 with util/util.go:32-46 from a terminal
   or from a file, and mute app (ctrlengine/app.go) from the form of the login page *)
Inductive given := Typed (p : bytes) | Piped (pieces : list bytes).
Definition got (g : given) : res bytes :=
  match g with Typed p => Ok p | Piped pieces => do (p, _) <- askOpen pieces; Ok p end.
(* A command of mutectrl that needs both databases, for example db status: ctrlengine/ctrlengine.go:1381-1406 openMsgDB,
   ctrlengine/db.go:297-325 mutecryptDBStatus, cryptengine/cryptengine.go:861-878 openKeyDB; the keys of both databases *)
Definition ctrlOpen (C : Crypto) (K : kdf) (home : bytes) (cut : bytes -> list bytes) (g : given) (s : fs) : option (res (bytes * bytes)) :=
  match (do p <- got g; do kM <- openDB C K (msgsName home) p s; Ok (p, kM)) with
  | Ok (p, kM) =>
    match handed cut p with
    | Some (Ok q) => Some (do kK <- openDB C K (keysName home) q s; Ok (kM, kK))
    | Some (Err x) => Some (Err x)
    | Some Panic => Some Panic
    | None => None
    end
  | Err x => Some (Err x)
  | Panic => Some Panic
  end.
(* protoengine/fetch.go:28-42 with ctrlengine/msg.go:503-510: the private key that muteproto uses to list the messages; it is copied into
   an array of 64 bytes *)
Definition fetchKey (cut : bytes -> list bytes) (privkey : bytes) : option (res bytes) :=
  match handed cut privkey with
  | Some r => Some (do l <- r; match b64dec l with Some k => Ok (takeN 64 (k ++ repeat 0 64)) | None => Err "illegal base64 data" end)
  | None => None
  end.
