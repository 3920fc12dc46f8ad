(* The lookup service as a storage of a key pool (serviceguard/client/keylookup/impl.go:88-108 RegisterStorage). *)
From Verif Require Import Base CryptoModel Maps KeyPoolModel PoolStoreModel.
Delimit Scope string_scope with string.
Local Open Scope N_scope.

(* serviceguard/client/keylookup/impl.go:107: the callbacks of the pool after RegisterStorage; the function that fetches keys is [remoteFetch]
   below, which also changes the pool *)
Definition withService (cb : callbacks) : callbacks := registerStorage (Some (fun _ _ _ => Err "keylookup"%string)) None None cb.
(* serviceguard/common/keypool/generator.go:148-154 SaveKeyUnsafe *)
Definition saveKey (cb : callbacks) (fl : faults) (now : Z) (id : bytes) (p : pool) (w : world) : res unit * world :=
  match lookup_ now id p with
  | Ok k => storeKey cb fl k w
  | Err s => (Err s, w)
  | Panic => (Panic, w)
  end.
(* serviceguard/client/keylookup/impl.go:91-106 fetchfunc; [server] is getKey (69-86).  The key is put into the pool and written to the
   storages; the error of the latter is dropped. *)
Definition remoteFetch (C : Crypto) (cb : callbacks) (server : bytes -> res bytes) (fl : faults) (now : Z) (id : bytes) (p : pool) (w : world) : res bytes * pool * world :=
  match server id with
  | Err s => (Err s, p, w)
  | Panic => (Panic, p, w)
  | Ok m =>
    match keyUnmarshal m with
    | Err s => (Err s, p, w)
    | Panic => (Panic, p, w)
    | Ok k =>
      match loadKey C now k p with
      | (Ok _, p') => (Ok m, p', snd (saveKey (withService cb) fl now (pkID k) p' w))
      | (Err s, p') => if String.eqb s errExists then (Ok m, p', snd (saveKey (withService cb) fl now (pkID k) p' w)) else (Err s, p', w)
      | (Panic, p') => (Panic, p', w)
      end
    end
  end.
(* serviceguard/common/keypool/generator.go:252-267 RegisterStorage: the fetch functions that were registered before are asked first *)
Definition chainFetch (C : Crypto) (cb : callbacks) (server : bytes -> res bytes) (fl : faults) (now : Z) (id : bytes) (p : pool) (w : world) : res bytes * pool * world :=
  match cFetch cb with
  | Some f => match f fl w id with Ok d => (Ok d, p, w) | _ => remoteFetch C cb server fl now id p w end
  | None => remoteFetch C cb server fl now id p w
  end.
(* serviceguard/common/keypool/generator.go:104-127 Lookup of a pool with such a storage *)
Definition lookupRemote (C : Crypto) (cb : callbacks) (server : bytes -> res bytes) (fl : faults) (now : Z) (id : bytes) (p : pool) (w : world) : res pubKey * pool * world :=
  match mget id (oKeys p) with
  | Some _ => (lookup_ now id p, p, w)
  | None =>
    match chainFetch C cb server fl now id p w with
    | (Ok d, p1, w1) =>
      match keyUnmarshal d with
      | Ok k =>
        let (r, p2) := loadKey C now k p1 in
        let found := if beq (pkID k) id then Ok k else Err "keypool: not found" in
        match r with
        | Ok _ => (found, p2, w1)
        | Err s => (if String.eqb s errExists then found else Err "keypool: not found", p2, w1)
        | Panic => (Panic, p2, w1)
        end
      | Err s => (Err s, p1, w1)
      | Panic => (Panic, p1, w1)
      end
    | (Err s, p1, w1) => (Err s, p1, w1)
    | (Panic, p1, w1) => (Panic, p1, w1)
    end
  end.
