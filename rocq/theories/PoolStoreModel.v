(* The storages of a key pool: the chain of callbacks, key files in a directory and the key table
   (serviceguard/common/keypool/generator.go, keypool/keydir/filestorage.go, keypool/keydb/dbstorage.go). *)
From Verif Require Import Base Base64Model CryptoModel Maps KeyPoolModel.
Delimit Scope string_scope with string.
Local Open Scope N_scope.

(* a storage: the files of a directory (None: a subdirectory or a file that cannot be read), or a key table *)
Inductive backend := Dir (d : map_ (option bytes)) | Db (t : keyTable).
Definition world := list backend.
(* what happens to a storage during a call: it works, it refuses, or (files) a part of the data is written before the error *)
Inductive fault := Fine | Refuse | Torn (b : bytes).
Definition faults := nat -> fault.
Definition isFine (f : fault) : bool := match f with Fine => true | _ => false end.

(* serviceguard/common/keypool/keydir/filestorage.go:29-38 writeKeyToDir *)
Definition fileName (keyid : bytes) : bytes := hexenc keyid ++ str ".pubkey".
Definition dirWrite (f : fault) (keyid data : bytes) (d : map_ (option bytes)) : res unit * map_ (option bytes) :=
  match mget (fileName keyid) d with
  | Some None => (Err "is a directory", d)
  | _ =>
    match f with
    | Fine => (Ok tt, mset (fileName keyid) (Some data) d)
    | Refuse => (Err "write", d)
    | Torn b => (Err "write", mset (fileName keyid) (Some b) d)
    end
  end.
(* serviceguard/common/keypool/keydb/dbstorage.go:164-188 loadFunc: the rows in the order of the result *)
Fixpoint loadRows (C : Crypto) (now : Z) (rows : list bytes) (p : pool) : res unit * pool :=
  match rows with
  | [] => (Ok tt, p)
  | enc :: rows' =>
    match b64dec enc with
    | None => (Err "illegal base64 data", p)
    | Some d =>
      match keyUnmarshal d with
      | Ok k => loadRows C now rows' (snd (loadKey C now k p))
      | Err s => (Err s, p)
      | Panic => (Panic, p)
      end
    end
  end.

(* the callbacks; storages are addressed by their number *)
Definition fetchF := faults -> world -> bytes -> res bytes.
Definition writeF := faults -> bytes -> bytes -> bytes -> world -> res unit * world.
(* the orders in which a directory and a table are read *)
Record orders := mkOrd { oDir : map_ (option bytes) -> list (option bytes); oRows : keyTable -> list bytes }.
Definition loadF := faults -> orders -> Z -> world -> pool -> res unit * pool.
Fixpoint upd (i : nat) (b : backend) (w : world) : world :=
  match w, i with [], _ => [] | _ :: w', O => b :: w' | x :: w', S j => x :: upd j b w' end.
Definition dirWriteCb (i : nat) : writeF := fun fl keyid usage data w =>
  match nth_error w i with
  | Some (Dir d) => let (r, d') := dirWrite (fl i) keyid data d in (r, upd i (Dir d') w)
  | _ => (Err "no directory", w)
  end.
Definition dbWriteCb (i : nat) : writeF := fun fl keyid usage data w =>
  match nth_error w i with
  | Some (Db t) => let (r, t') := dbWrite (negb (isFine (fl i))) keyid usage data t in (r, upd i (Db t') w)
  | _ => (Err "no table", w)
  end.
Section Load.
Variable C : Crypto.
Definition dirLoadCb (i : nat) : loadF := fun fl o now w p =>
  match nth_error w i, fl i with
  | Some (Dir d), Fine => loadFiles C now (oDir o d) p
  | _, _ => (Err "readdir", p)
  end.
Definition dbLoadCb (i : nat) : loadF := fun fl o now w p =>
  match nth_error w i, fl i with
  | Some (Db t), Fine => loadRows C now (oRows o t) p
  | _, _ => (Err "query", p)
  end.
Definition dbFetchCb (i : nat) : fetchF := fun fl w keyid =>
  match nth_error w i, fl i with
  | Some (Db t), Fine => dbFetch keyid t
  | _, _ => Err "query"
  end.

(* serviceguard/common/keypool/generator.go:55-62 *)
Record callbacks := mkCb { cFetch : option fetchF; cWrite : option writeF; cLoad : option loadF }.
(* serviceguard/common/keypool/generator.go:252-289 RegisterStorage *)
Definition registerStorage (fetch : option fetchF) (write : option writeF) (load : option loadF) (cb : callbacks) : callbacks :=
  mkCb
    (match fetch with
     | None => cFetch cb
     | Some new => Some (fun fl w keyid =>
         match cFetch cb with
         | Some old => match old fl w keyid with Ok d => Ok d | _ => new fl w keyid end
         | None => new fl w keyid
         end)
     end)
    (match write with
     | None => cWrite cb
     | Some new => Some (fun fl keyid usage data w =>
         match cWrite cb with
         | Some old => match old fl keyid usage data w with (Ok _, w') => new fl keyid usage data w' | (r, w') => (r, w') end
         | None => new fl keyid usage data w
         end)
     end)
    (match load with
     | None => cLoad cb
     | Some new => Some (fun fl o now w p =>
         match cLoad cb with
         | Some old => match old fl o now w p with (Ok _, p') => new fl o now w p' | (r, p') => (r, p') end
         | None => new fl o now w p
         end)
     end).
(* serviceguard/common/keypool/keydir/filestorage.go:19-26 Add and serviceguard/common/keypool/keydb/dbstorage.go:112-125 Add, called for the first n storages in order;
   [table i]: storage i is a key table *)
Definition addDir (i : nat) (cb : callbacks) : callbacks := registerStorage None (Some (dirWriteCb i)) (Some (dirLoadCb i)) cb.
Definition addDb (i : nat) (cb : callbacks) : callbacks := registerStorage (Some (dbFetchCb i)) (Some (dbWriteCb i)) (Some (dbLoadCb i)) cb.
Fixpoint setup (table : nat -> bool) (n : nat) : callbacks :=
  match n with O => mkCb None None None | S m => (if table m then addDb m else addDir m) (setup table m) end.

(* serviceguard/common/keypool/generator.go:236-249 WriteKey and 228-233 Load *)
Definition storeKey (cb : callbacks) (fl : faults) (k : pubKey) (w : world) : res unit * world :=
  match keyMarshal k with
  | None => (Err "asn1: string not valid UTF-8", w)
  | Some d => match cWrite cb with None => (Ok tt, w) | Some f => f fl (pkID k) (pkUsage k) d w end
  end.
Definition load (cb : callbacks) (fl : faults) (o : orders) (now : Z) (w : world) (p : pool) : res unit * pool :=
  match cLoad cb with None => (Ok tt, p) | Some f => f fl o now w p end.
(* serviceguard/common/keypool/generator.go:157-188 Current: the key that it generates is written first, the rest is [current] *)
Definition generated (now : Z) (pt : option (N * N)) (p : pool) : option pubKey :=
  if match oCurrent p with None => true | Some k => (pkExp k <? now - Z.quot (nExpire (oGen p)) 2)%Z end
  then match genKey C (oGen p) now pt with Ok k => Some k | _ => None end else None.
Definition currentS (cb : callbacks) (fl : faults) (now : Z) (pt : option (N * N)) (p : pool) (w : world) : res (pubKey * option pubKey) * pool * world :=
  let (r, w') := match generated now pt p with Some k => storeKey cb fl k w | None => (Ok tt, w) end in
  (current C (mkEnv now None (is_ok r) pt) p, w').
(* serviceguard/common/keypool/generator.go:104-127 Lookup *)
Definition lookupS (cb : callbacks) (fl : faults) (now : Z) (w : world) (id : bytes) (p : pool) : res pubKey * pool :=
  lookupKey C (mkEnv now (match cFetch cb with Some f => Some (f fl w) | None => None end) true None) id p.
End Load.
