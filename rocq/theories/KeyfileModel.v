(* Key files and encrypted databases (encdb/keyfile.go, encdb/encdb.go) on a file system with crashes. *)
From Verif Require Import Base Base64Model CryptoModel Maps.
Delimit Scope string_scope with string.
Local Open Scope N_scope.

(* the file system: name to content *)
Notation fs := (map_ bytes).
(* pbkdf2.Key(passphrase, salt, iter, 32, sha256.New): passphrase, salt, iterations *)
Definition kdf := bytes -> bytes -> N -> bytes.
(* What may fail: os.Create, writing after a number of bytes (None: enough room), os.Rename *)
Record disk := mkDisk { dCreate : bool; dRoom : option nat; dRename : bool }.
Definition goodDisk : disk := mkDisk true None true.

(* encdb/keyfile.go:47-94 writeKeyfile.  [rnd] is what the random source delivers; with less than 32 bytes the salt fails after the
   file was created, with less than 48 bytes CBCEncrypt panics (cipher/aes256/aes256.go:34-37).  The result has all states of the
   file system after each step; a write is cut by a crash after any byte. *)
Definition keyfileBytes (C : Crypto) (K : kdf) (pass : bytes) (iter : N) (key rnd : bytes) : bytes :=
  let salt := takeN 32 rnd in
  let iv := takeN 16 (dropN 32 rnd) in
  le 8 iter ++ salt ++ iv ++ cbcenc C (K pass salt iter) iv key.
Definition prefixes (f content : bytes) (upto : nat) (s : fs) : list fs := map (fun n => mset f (firstn n content) s) (seq 0 (S upto)).
Definition writeKeyfile (C : Crypto) (K : kdf) (d : disk) (f pass : bytes) (iter : Z) (key rnd : bytes) (s : fs) : res unit * list fs :=
  match mget f s with
  | Some _ => (Err "encdb: keyfile exists already", [])
  | None =>
    if (iter <? 0)%Z || (2147483647 <? iter)%Z then (Err "encdb: writeKeyfile: invalid iter value", [])
    else if negb (lenN key =? 32) then (Err "encdb: writeKeyfile: len(key) != 32", [])
    else if negb (dCreate d) then (Err "create", [])
    else if lenN rnd <? 32 then (Err "rand", [mset f [] s])
    else if lenN rnd <? 48 then (Panic, [mset f [] s])
    else
      let content := keyfileBytes C K pass (Z.to_N iter) key rnd in
      match dRoom d with
      | Some n => if (n <? length content)%nat then (Err "write", prefixes f content n s) else (Ok tt, prefixes f content (length content) s)
      | None => (Ok tt, prefixes f content (length content) s)
      end
  end.
(* encdb/keyfile.go:101-111 generateKeyfile: the key is the first 32 random bytes *)
Definition generateKeyfile (C : Crypto) (K : kdf) (d : disk) (f pass : bytes) (iter : Z) (rnd : bytes) (s : fs) : res bytes * list fs :=
  if lenN rnd <? 32 then (Err "rand", [])
  else let (r, l) := writeKeyfile C K d f pass iter (takeN 32 rnd) (dropN 32 rnd) s in
       (match r with Ok _ => Ok (takeN 32 rnd) | Err e => Err e | Panic => Panic end, l).
(* os.File.Read into a zeroed buffer of n bytes: io.EOF at the end, fewer bytes without an error before *)
Definition fread (n : N) (s : bytes) : res (bytes * bytes) :=
  match s with [] => Err "EOF" | _ => Ok (takeN n (s ++ repeat 0 (N.to_nat n)), dropN n s) end.
(* encdb/keyfile.go:117-148 ReadKeyfile *)
Definition readContent (C : Crypto) (K : kdf) (pass : bytes) (content : bytes) : res bytes :=
  do (biter, r) <- fread 8 content;
  let iter := le_dec biter in
  if 2147483647 <? iter then Err "encdb: ReadKeyfile: invalid iter value"
  else do (salt, r) <- fread 32 r;
       do (enc, _) <- fread 48 r;
       Ok (cbcdec C (K pass salt iter) (takeN 16 enc) (dropN 16 enc)).
Definition readKeyfile (C : Crypto) (K : kdf) (f pass : bytes) (s : fs) : res bytes :=
  match mget f s with None => Err "no such file" | Some content => readContent C K pass content end.
(* encdb/keyfile.go:150-161 replaceKeyfile *)
Definition tmpName (f : bytes) : bytes := f ++ str ".new".
Definition replaceKeyfile (C : Crypto) (K : kdf) (d : disk) (f old new : bytes) (iter : Z) (rnd : bytes) (s : fs) : res unit * list fs :=
  match readKeyfile C K f old s with
  | Err e => (Err e, [])
  | Panic => (Panic, [])
  | Ok key =>
    let s1 := mdel (tmpName f) s in
    let (r, l) := writeKeyfile C K d (tmpName f) new iter key rnd s1 in
    match r with
    | Ok _ =>
      let s2 := last l s1 in
      if dRename d then
        match mget (tmpName f) s2 with
        | Some content => (Ok tt, s1 :: l ++ [mset f content (mdel (tmpName f) s2)])
        | None => (Err "rename", s1 :: l)
        end
      else (Err "rename", s1 :: l)
    | _ => (r, s1 :: l)
    end
  end.

(* encdb/encdb.go:64-118 Create.  A database file is represented by the key it is encrypted with; its tables are the subject of
   the models of msgdb, keydb and the wallet store. *)
Definition dbFile (name : bytes) : bytes := name ++ str ".db".
Definition keyFile (name : bytes) : bytes := name ++ str ".key".
Definition create (C : Crypto) (K : kdf) (d : disk) (name pass : bytes) (iter : Z) (rnd : bytes) (s : fs) : res unit * list fs :=
  match mget (dbFile name) s, mget (keyFile name) s with
  | Some _, _ => (Err "encdb: dbfile exists already", [])
  | _, Some _ => (Err "encdb: keyfile exists already", [])
  | None, None =>
    let (r, l) := generateKeyfile C K d (keyFile name) pass iter rnd s in
    match r with
    | Ok key => (Ok tt, l ++ [mset (dbFile name) key (last l s)])
    | Err e => (Err e, l)
    | Panic => (Panic, l)
    end
  end.
(* encdb/encdb.go:129-167 Open: the key is tested with a query *)
Definition openDB (C : Crypto) (K : kdf) (name pass : bytes) (s : fs) : res bytes :=
  match mget (dbFile name) s, mget (keyFile name) s with
  | Some k, Some _ => do key <- readKeyfile C K (keyFile name) pass s; if beq key k then Ok key else Err "file is not a database"
  | _, _ => Err "no such file"
  end.
(* encdb/encdb.go:181-189 Rekey *)
Definition rekey (C : Crypto) (K : kdf) (d : disk) (name old new : bytes) (iter : Z) (rnd : bytes) (s : fs) : res unit * list fs :=
  match openDB C K name old s with
  | Err e => (Err e, [])
  | Panic => (Panic, [])
  | Ok _ => replaceKeyfile C K d (keyFile name) old new iter rnd s
  end.
(* Power loss: no call of Sync is made (encdb/keyfile.go:66-93, 155-160), so the data of any file written since it was created may be
   cut to a prefix, while names and renames are kept. *)
Definition powerLoss (written : list bytes) (s s' : fs) : Prop :=
  (forall f, ~ In f written -> mget f s' = mget f s) /\
  forall f, In f written -> match mget f s with None => mget f s' = None | Some c => exists n, mget f s' = Some (firstn n c) end.
