(* The text protocols between mutectrl and its helper programs muteproto and mutecrypt.

   Fetching (ctrlengine/msg.go:478-647 with protoengine/fetch.go:20-101): two processes and the goroutines of the first
   one, joined by three pipes: status lines (standard error of muteproto), commands, and message bytes (standard output
   of muteproto, capacity [cap]).  Every interleaving and every division of the bytes into writes and reads is a
   sequence of steps.  A line of status or command output is written by one call of Fprintf and is a unit here; these
   two pipes hold at most a few lines and never fill up.  Messages that the server sent are given as a list; [fin] is
   the error, if any, that ends the list before its end (ListMessages or FetchMessage).  trimSpace is the one of
   IdentityModel (characters instead of bytes, the same for ASCII).  Not modelled: failing pipes, log output.

   Status lines of mutecrypt: what cryptengine prints and what ctrlengine reads. *)
From Verif Require Import Base Base64Model CodecModel IdentityModel SqlModel MsgDBModel CryptoModel MixModel MixClientModel CtrlModel.
Delimit Scope string_scope with string.
Local Open Scope N_scope.

(* fmt.Fprintf %d of an int64 *)
Definition formatInt (z : Z) : bytes := if (z <? 0)%Z then 45 :: decimal (Z.abs_N z) else decimal (Z.to_N z).

(* ------------------------------------------------------------------ *)
(* protoengine/fetch.go:70,87,89,99 and util/util.go:24-27; ctrlengine/msg.go:569,578 *)
Definition lineID (id : bytes) : bytes := str "MESSAGEID:" ++ [9] ++ id.
Definition lineLen (n : N) : bytes := str "LENGTH:" ++ [9] ++ decimal n.
Definition lineTime (t : Z) : bytes := str "RECEIVETIME:" ++ [9] ++ formatInt t.
Definition lineNone : bytes := str "NONE".
Definition lineErr (e : bytes) : bytes := str "muteproto: error: " ++ e.
Definition cmdNext : bytes := str "NEXT".
Definition cmdQuit : bytes := str "QUIT".

(* ctrlengine/msg.go:551-564: the line that starts a message *)
Inductive sline := SNone | SNothing | SMsg (id : bytes) | SBad.
Definition fieldOf (name line : bytes) : option bytes :=
  match splitOn 9 line with [a; b] => if beq a name then Some b else None | _ => None end.
Definition readStatus (line : bytes) : sline :=
  let line := trimSpace line in
  if beq line lineNone then SNone
  else if hasSuffix line (str "accountdb: nothing found") then SNothing
  else match fieldOf (str "MESSAGEID:") line with Some id => SMsg id | None => SBad end.
(* ctrlengine/msg.go:607-614 *)
Definition readLength (line : bytes) : option N :=
  match fieldOf (str "LENGTH:") line with Some s => parse_dec s | None => None end.
(* ctrlengine/msg.go:621-628 *)
Definition readTime (line : bytes) : option Z :=
  match fieldOf (str "RECEIVETIME:") line with Some s => parseInt s | None => None end.

(* a message on the server: identifier, message, time of receipt *)
Record fmsg := mkF { fID : bytes; fMsg : bytes; fTime : Z }.
(* the same as the client sees it *)
Definition seen (m : fmsg) : bytes * bytes * Z := (b64enc (fID m), b64enc (fMsg m), fTime m).

(* muteproto fetch: at the head of the loop, waiting for a command, writing the message, having written the length, ended *)
Inductive proto := PLoop (l : list fmsg) | PWait (m : fmsg) (l : list fmsg) | PWrite (rest : bytes) (m : fmsg) (l : list fmsg)
  | PTime (m : fmsg) (l : list fmsg) | PExit (ok : bool).
(* muteprotoFetch, the main goroutine; [nt] is the time of the first message once there was one *)
Inductive main :=
| CRead (nt : option Z)                    (* line 547 *)
| CQuit (id : bytes) (nt : option Z)       (* line 569 *)
| CRem (id : bytes) (nt : option Z)        (* line 570 *)
| CNext (id : bytes) (nt : option Z)       (* line 578 *)
| CCache (id : bytes) (nt : option Z)      (* line 579 *)
| CLen (nt : option Z)                     (* line 603 *)
| CTime (len : N) (nt : option Z)          (* line 617 *)
| CStop (len : N) (t : Z) (nt : option Z)  (* line 631 *)
| CDone (t : Z) (nt : option Z)            (* line 632 *)
| CStore (t : Z) (nt : option Z)           (* line 633 *)
| CWait (nt : option Z)                    (* line 643 *)
| CFin (r : option Z).                     (* returned: the new time, None for an error *)
(* the goroutine of lines 587-601: none, selecting, collecting up to a length *)
Inductive coll := KNone | KRun | KDrain (len : N).
Record sys := mkSys {
  sP : proto; sStat : list bytes; sCmd : list bytes; sPipe : bytes;
  sHeld : option bytes;      (* what the goroutine of lines 524-539 has read and not yet passed on *)
  sColl : coll; sBuf : bytes; sMain : main; sDB : msgdb }.
Definition setP p st pipe (s : sys) := mkSys p st (sCmd s) pipe (sHeld s) (sColl s) (sBuf s) (sMain s) (sDB s).
Definition setM m st cmd k db (s : sys) := mkSys (sP s) st cmd (sPipe s) (sHeld s) k (sBuf s) m db.

Section Fetch.
  Variable U : Unicode.
  Variables my c : bytes.
  Variable cache : list bytes.
  Variable fin : option bytes.
  Variable cap : N.

  Definition lineEnd : bytes := match fin with None => lineNone | Some e => lineErr e end.
  Definition timeOf (nt : option Z) : Z := match nt with Some t => t | None => 0%Z end.
  Definition firstTime (nt : option Z) (t : Z) : option Z := Some (match nt with Some t' => t' | None => t end).

  Inductive fstep : sys -> sys -> Prop :=
  (* protoengine/fetch.go:62-100 *)
  | F_end s : sP s = PLoop [] -> fstep s (setP (PExit (match fin with None => true | Some _ => false end)) (sStat s ++ [lineEnd]) (sPipe s) s)
  | F_id s m l : sP s = PLoop (m :: l) -> fstep s (setP (PWait m l) (sStat s ++ [lineID (b64enc (fID m))]) (sPipe s) s)
  | F_next s m l r : sP s = PWait m l -> sCmd s = cmdNext :: r ->
      fstep s (mkSys (PWrite (b64enc (fMsg m)) m l) (sStat s) r (sPipe s) (sHeld s) (sColl s) (sBuf s) (sMain s) (sDB s))
  | F_quit s m l r : sP s = PWait m l -> sCmd s = cmdQuit :: r ->
      fstep s (mkSys (PExit true) (sStat s) r (sPipe s) (sHeld s) (sColl s) (sBuf s) (sMain s) (sDB s))
  | F_write s a b m l : sP s = PWrite (a ++ b) m l -> a <> [] -> lenN (sPipe s ++ a) <= cap -> fstep s (setP (PWrite b m l) (sStat s) (sPipe s ++ a) s)
  | F_len s m l : sP s = PWrite [] m l -> fstep s (setP (PTime m l) (sStat s ++ [lineLen (lenN (b64enc (fMsg m)))]) (sPipe s) s)
  | F_time s m l : sP s = PTime m l -> fstep s (setP (PLoop l) (sStat s ++ [lineTime (fTime m)]) (sPipe s) s)
  (* ctrlengine/msg.go:524-539 *)
  | R_read s a b : sHeld s = None -> sPipe s = a ++ b -> a <> [] -> lenN a <= 4096 ->
      fstep s (mkSys (sP s) (sStat s) (sCmd s) b (Some a) (sColl s) (sBuf s) (sMain s) (sDB s))
  (* ctrlengine/msg.go:588-600 *)
  | R_pass s a : sHeld s = Some a -> match sColl s with KNone => False | KRun => True | KDrain len => lenN (sBuf s) < len end ->
      fstep s (mkSys (sP s) (sStat s) (sCmd s) (sPipe s) None (sColl s) (sBuf s ++ a) (sMain s) (sDB s))
  (* ctrlengine/msg.go:545-584; reading fails at the end of the status output *)
  | M_none s nt ln st : sMain s = CRead nt -> sStat s = ln :: st -> readStatus ln = SNone -> fstep s (setM (CWait nt) st (sCmd s) (sColl s) (sDB s) s)
  | M_nothing s nt ln st : sMain s = CRead nt -> sStat s = ln :: st -> readStatus ln = SNothing -> fstep s (setM (CFin (Some 0%Z)) st (sCmd s) (sColl s) (sDB s) s)
  | M_bad s nt ln st : sMain s = CRead nt -> sStat s = ln :: st -> readStatus ln = SBad -> fstep s (setM (CFin None) st (sCmd s) (sColl s) (sDB s) s)
  | M_known s nt ln st id : sMain s = CRead nt -> sStat s = ln :: st -> readStatus ln = SMsg id -> existsb (beq id) cache = true ->
      fstep s (setM (CQuit id nt) st (sCmd s) (sColl s) (sDB s) s)
  | M_new s nt ln st id : sMain s = CRead nt -> sStat s = ln :: st -> readStatus ln = SMsg id -> existsb (beq id) cache = false ->
      fstep s (setM (CNext id nt) st (sCmd s) (sColl s) (sDB s) s)
  | M_eof s nt ok : sMain s = CRead nt -> sStat s = [] -> sP s = PExit ok -> fstep s (setM (CFin None) [] (sCmd s) (sColl s) (sDB s) s)
  | M_quit s id nt : sMain s = CQuit id nt -> fstep s (setM (CRem id nt) (sStat s) (sCmd s ++ [cmdQuit]) (sColl s) (sDB s) s)
  | M_rem s id nt db : sMain s = CRem id nt -> dexec U (DRemoveCache my c id) (sDB s) = Ok db -> fstep s (setM (CWait nt) (sStat s) (sCmd s) (sColl s) db s)
  | M_rem_err s id nt : sMain s = CRem id nt -> is_ok (dexec U (DRemoveCache my c id) (sDB s)) = false -> fstep s (setM (CFin None) (sStat s) (sCmd s) (sColl s) (sDB s) s)
  | M_next s id nt : sMain s = CNext id nt -> fstep s (setM (CCache id nt) (sStat s) (sCmd s ++ [cmdNext]) (sColl s) (sDB s) s)
  | M_cache s id nt db : sMain s = CCache id nt -> dexec U (DAddCache my c id) (sDB s) = Ok db -> fstep s (setM (CLen nt) (sStat s) (sCmd s) KRun db s)
  | M_cache_err s id nt : sMain s = CCache id nt -> is_ok (dexec U (DAddCache my c id) (sDB s)) = false -> fstep s (setM (CFin None) (sStat s) (sCmd s) (sColl s) (sDB s) s)
  (* ctrlengine/msg.go:603-645 *)
  | M_len s nt ln st n : sMain s = CLen nt -> sStat s = ln :: st -> readLength ln = Some n -> fstep s (setM (CTime n nt) st (sCmd s) (sColl s) (sDB s) s)
  | M_len_err s nt ln st : sMain s = CLen nt -> sStat s = ln :: st -> readLength ln = None -> fstep s (setM (CFin None) st (sCmd s) (sColl s) (sDB s) s)
  | M_len_eof s nt ok : sMain s = CLen nt -> sStat s = [] -> sP s = PExit ok -> fstep s (setM (CFin None) [] (sCmd s) (sColl s) (sDB s) s)
  | M_time s n nt ln st t : sMain s = CTime n nt -> sStat s = ln :: st -> readTime ln = Some t -> fstep s (setM (CStop n t nt) st (sCmd s) (sColl s) (sDB s) s)
  | M_time_err s n nt ln st : sMain s = CTime n nt -> sStat s = ln :: st -> readTime ln = None -> fstep s (setM (CFin None) st (sCmd s) (sColl s) (sDB s) s)
  | M_time_eof s n nt ok : sMain s = CTime n nt -> sStat s = [] -> sP s = PExit ok -> fstep s (setM (CFin None) [] (sCmd s) (sColl s) (sDB s) s)
  | M_stop s n t nt : sMain s = CStop n t nt -> sColl s = KRun -> fstep s (setM (CDone t nt) (sStat s) (sCmd s) (KDrain n) (sDB s) s)
  | M_done s t nt n : sMain s = CDone t nt -> sColl s = KDrain n -> n <= lenN (sBuf s) -> fstep s (setM (CStore t nt) (sStat s) (sCmd s) KNone (sDB s) s)
  | M_store s t nt db : sMain s = CStore t nt -> dexec U (DAddInQueue my c t (sBuf s)) (sDB s) = Ok db ->
      fstep s (mkSys (sP s) (sStat s) (sCmd s) (sPipe s) (sHeld s) (sColl s) [] (CRead (firstTime nt t)) db)
  | M_store_err s t nt : sMain s = CStore t nt -> is_ok (dexec U (DAddInQueue my c t (sBuf s)) (sDB s)) = false -> fstep s (setM (CFin None) (sStat s) (sCmd s) (sColl s) (sDB s) s)
  | M_wait s nt : sMain s = CWait nt -> sP s = PExit true -> fstep s (setM (CFin (Some (timeOf nt))) (sStat s) (sCmd s) (sColl s) (sDB s) s)
  | M_wait_err s nt : sMain s = CWait nt -> sP s = PExit false -> fstep s (setM (CFin None) (sStat s) (sCmd s) (sColl s) (sDB s) s).

  Inductive fsteps : sys -> sys -> Prop :=
  | fs_refl s : fsteps s s
  | fs_step s1 s2 s3 : fsteps s1 s2 -> fstep s2 s3 -> fsteps s1 s3.
  (* muteproto has the messages [l]; nothing has been written or read *)
  Definition finit (l : list fmsg) (db : msgdb) : sys := mkSys (PLoop l) [] [] [] None KNone [] (CRead None) db.
End Fetch.

(* ------------------------------------------------------------------ *)
(* bufio.Scanner with ScanLines, the first line: up to the first newline or the end, without a final carriage return; None if there
   is no input.  Simplified: no limit on the length of a line (64 KiB in Go; headers are shorter). *)
Definition scanLine (s : bytes) : option bytes :=
  match s with [] => None | _ => Some (chop_cr (match cutOn 10 s with Some (a, _) => a | None => s end)) end.
(* cryptengine/decrypt.go:77-81 *)
Definition decryptStatus (senderID sig : bytes) : bytes :=
  str "SENDERIDENTITY:" ++ [9] ++ senderID ++ [10] ++ (if isNil sig then [] else str "SIGNATURE:" ++ [9] ++ sig ++ [10]).
(* ctrlengine/msg.go:695-709 *)
Definition parseSender (errbuf : bytes) : res bytes :=
  match scanLine errbuf with
  | None => Err "ctrlengine: expecting mutecrypt output"
  | Some line => fromOpt (fieldOf (str "SENDERIDENTITY:") line) "ctrlengine: mutecrypt status output not parsable"
  end.
(* cryptengine/encrypt.go:76 *)
Definition encryptStatus (nymAddress : bytes) : bytes := str "NYMADDRESS:" ++ [9] ++ nymAddress ++ [10].
(* ctrlengine/msg.go:94-102 *)
Definition parseNym (errbuf : bytes) : res bytes :=
  fromOpt (fieldOf (str "NYMADDRESS:") (trimSpace errbuf)) "ctrlengine: mutecrypt status output not parsable".
