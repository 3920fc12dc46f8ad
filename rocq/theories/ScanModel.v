(* Reading passphrases: bufio.Scanner with the memory of its buffer, and the commands that create and rekey the databases.
   The slices that Bytes returns point into the buffer; they are kept as positions, so a later Scan can change what they
   contain. *)
From Verif Require Import Base CodecModel Maps IdentityModel SqlModel MsgDBModel CryptoModel KeyfileModel.
Delimit Scope string_scope with string.
Local Open Scope N_scope.

(* a []byte that points into a buffer: number of the buffer (in the order of allocation), offset, length *)
Record slice := mkSl { slBuf : nat; slOff : N; slLen : N }.
(* bufio.Scanner of Go 1.14 (src/bufio/scan.go): [scOld] the buffers that were given up when a larger one was allocated,
   [scBuf] the present buffer, [scEof] and [scLong] the error (io.EOF, ErrTooLong), [scIn] what the following calls of Read
   can get from the file: Read returns the first piece, or the part of it that fits *)
Record scanner := mkScan { scOld : list bytes; scBuf : bytes; scStart : N; scEnd : N; scEof : bool; scLong : bool; scIn : list bytes }.
(* bufio.NewScanner; Read does not return 0 bytes unless at the end of the file *)
Definition newScanner (pieces : list bytes) : scanner := mkScan [] [] 0 0 false false (filter (fun p => negb (isNil p)) pieces).
(* scan.go ScanLines: how far to advance, and the length of the token, which starts at the beginning of the data *)
Definition scanLines (data : bytes) (eof : bool) : N * option N :=
  if eof && isNil data then (0, None)
  else match cutOn 10 data with
  | Some (a, _) => (lenN a + 1, Some (lenN (chop_cr a)))
  | None => if eof then (lenN data, Some (lenN (chop_cr data))) else (0, None)
  end.
Definition scData (s : scanner) : bytes := takeN (scEnd s - scStart s) (dropN (scStart s) (scBuf s)).
(* Scan, "First, shift data to beginning of buffer" *)
Definition scShift (s : scanner) : scanner :=
  if (0 <? scStart s) && ((scEnd s =? lenN (scBuf s)) || (lenN (scBuf s) / 2 <? scStart s)) then
    mkScan (scOld s) (scData s ++ dropN (lenN (scData s)) (scBuf s)) 0 (scEnd s - scStart s) (scEof s) (scLong s) (scIn s)
  else s.
(* Scan, "Is the buffer full? If so, resize."  startBufSize = 4096, MaxScanTokenSize = 65536 *)
Definition scGrow (s : scanner) : option scanner :=
  if scEnd s =? lenN (scBuf s) then
    if 65536 <=? lenN (scBuf s) then None
    else let n := N.min 65536 (if lenN (scBuf s) =? 0 then 4096 else lenN (scBuf s) * 2) in
         Some (mkScan (scOld s ++ [scBuf s]) (scData s ++ repeat 0 (N.to_nat (n - lenN (scData s)))) 0 (scEnd s - scStart s) (scEof s) (scLong s) (scIn s))
  else Some s.
(* Scan, "Finally we can read some input." *)
Definition scRead (s : scanner) : scanner :=
  match scIn s with
  | [] => mkScan (scOld s) (scBuf s) (scStart s) (scEnd s) true (scLong s) []
  | p :: ps =>
    let room := lenN (scBuf s) - scEnd s in let d := takeN room p in
    mkScan (scOld s) (takeN (scEnd s) (scBuf s) ++ d ++ dropN (scEnd s + lenN d) (scBuf s)) (scStart s) (scEnd s + lenN d) (scEof s) (scLong s)
      (if lenN p <=? room then ps else dropN room p :: ps)
  end.
(* scan.go Scan: the token if it returns true; every round of the loop reads at least one byte or the end of the file, so
   the number of rounds given by [scan] is enough *)
Fixpoint scanLoop (fuel : nat) (s : scanner) : option slice * scanner :=
  match fuel with
  | O => (None, s)
  | S f =>
    match (if (scStart s <? scEnd s) || scEof s then scanLines (scData s) (scEof s) else (0, None)) with
    | (adv, Some n) => (Some (mkSl (length (scOld s)) (scStart s) n), mkScan (scOld s) (scBuf s) (scStart s + adv) (scEnd s) (scEof s) (scLong s) (scIn s))
    | (_, None) =>
      if scEof s then (None, mkScan (scOld s) (scBuf s) 0 0 true (scLong s) (scIn s))
      else match scGrow (scShift s) with
      | None => (None, mkScan (scOld s) (scBuf (scShift s)) (scStart (scShift s)) (scEnd (scShift s)) (scEof s) true (scIn s))
      | Some s' => scanLoop f (scRead s')
      end
    end
  end.
Definition scan (s : scanner) : option slice * scanner := scanLoop (S (S (length (concat (scIn s))))) s.
(* what a slice contains; nil contains nothing *)
Definition deref (s : scanner) (x : option slice) : bytes :=
  match x with Some sl => takeN (slLen sl) (dropN (slOff sl) (nth (slBuf sl) (scOld s ++ [scBuf s]) [])) | None => [] end.
(* the pattern in cryptengine/db.go:25-31, ctrlengine/db.go:104-109 and util/util.go:38-45: nil at the end of the file *)
Definition readPass (s : scanner) : res (option slice * scanner) :=
  match scan s with
  | (Some t, s') => Ok (Some t, s')
  | (None, s') => if scLong s' then Err "bufio.Scanner: token too long" else Ok (None, s')
  end.
(* cryptengine/db.go:20-44, ctrlengine/db.go:89-133 (not a terminal; the error has another text): the passphrase for the new database; and what is in
   the memory of the buffers when the function returns.  bzero.Bytes is deferred before the passphrases are read, with the
   nil slices of that moment: nothing is overwritten. *)
Definition askNew (pieces : list bytes) : res (bytes * scanner) :=
  do (p1, s1) <- readPass (newScanner pieces);
  do (p2, s2) <- readPass s1;
  if negb (beq (deref s2 p1) (deref s2 p2)) then Err "passphrases differ" else Ok (deref s2 p1, s2).
(* cryptengine/db.go:51-84, ctrlengine/db.go:214-285 (not a terminal; the error has another text): the old and the new passphrase *)
Definition askRekey (pieces : list bytes) : res (bytes * bytes) :=
  do (p0, s0) <- readPass (newScanner pieces);
  do (p1, s1) <- readPass s0;
  do (p2, s2) <- readPass s1;
  if negb (beq (deref s2 p1) (deref s2 p2)) then Err "new passphrases differ" else Ok (deref s2 p0, deref s2 p1).
(* bzero.Bytes on a slice *)
Definition zeroIn (b : bytes) (off n : N) : bytes := takeN off b ++ repeat 0 (N.to_nat (N.min n (lenN b - off))) ++ dropN (off + n) b.
Fixpoint updNth {A} (n : nat) (f : A -> A) (l : list A) : list A :=
  match l, n with [], _ => [] | x :: l', O => f x :: l' | x :: l', S n' => x :: updNth n' f l' end.
Definition bzero (x : option slice) (mem : list bytes) : list bytes :=
  match x with Some sl => updNth (slBuf sl) (fun b => zeroIn b (slOff sl) (slLen sl)) mem | None => mem end.
(* cryptengine/cryptengine.go:861-878 with util/util.go:32-46 (not a terminal): the passphrase, and the buffers after the
   deferred bzero.Bytes, which here comes after the passphrase was read *)
Definition askOpen (pieces : list bytes) : res (bytes * list bytes) :=
  do (p, s) <- readPass (newScanner pieces);
  Ok (deref s p, bzero p (scOld s ++ [scBuf s])).

(* ------------------------------------------------------------------ *)
(* mutectrl db rekey.  How mutectrl gets the passphrases: from a terminal (three lines without line break; see
   golang.org/x/crypto/ssh/terminal ReadPassword) or from a file. *)
Inductive entry := Terminal (old new new2 : bytes) | File (pieces : list bytes).
Definition askCtrl (e : entry) : res (bytes * bytes) :=
  match e with
  | Terminal old new new2 => if negb (beq new new2) then Err "passphrases differ" else Ok (old, new)
  | File pieces => askRekey pieces
  end.
(* ctrlengine/db.go:193-206: what mutectrl writes to the standard input of mutecrypt *)
Definition rekeyInput (old new : bytes) : bytes := old ++ [10] ++ new ++ [10] ++ new ++ [10].
Definition msgsName (home : bytes) : bytes := home ++ str "/msgs".
Definition keysName (home : bytes) : bytes := home ++ str "/keys".
(* ctrlengine/db.go:214-294 dbRekey with rekeyKeyDB (176-211) and cryptengine/db.go:51-88 dbRekey; [cut] are the pieces in
   which mutecrypt reads its input, [dM] and [dK] how the disk behaves, and the file systems that occur *)
Definition ctrlRekey (C : Crypto) (K : kdf) (dM dK : disk) (home : bytes) (iter : Z) (rM rK : bytes) (e : entry) (cut : bytes -> list bytes) (s : fs) : res unit * fs :=
  match askCtrl e with
  | Ok (old, new) =>
    match rekey C K dM (msgsName home) old new iter rM s with
    | (Ok _, l) =>
      match askRekey (cut (rekeyInput old new)) with
      | Ok (old', new') => let (r, l2) := rekey C K dK (keysName home) old' new' iter rK (last l s) in (r, last l2 (last l s))
      | Err x => (Err x, last l s)
      | Panic => (Panic, last l s)
      end
    | (Err x, l) => (Err x, last l s)
    | (Panic, l) => (Panic, last l s)
    end
  | Err x => (Err x, s)
  | Panic => (Panic, s)
  end.
