(* The keys of a mix over time: mix/mixaddr/privkey.go, with the files it writes and the loop that maintains the list.
   MixModel has the list of keys without entries, files and the loop; here each entry is the whole KeyEntry.
   Go iterates over a map in any order: every operation that ranges over the keys has the order as an argument.
   The clock is read several times in one turn of the loop; each reading is an argument.  Expiry times are integers, not
   int64.  The JSON text of the key files is the list of entries it stands for, and a write that fails leaves the file
   as it was.  The mutex and the stop channel are left out: the turns of the loop are taken one after the other. *)
From Verif Require Import Base CodecModel CryptoModel MixModel.
Delimit Scope string_scope with string.
Local Open Scope N_scope.

(* mix/mixaddr/privkey.go:31-37 KeyEntry *)
Record mixEntry := mkME { mePub : bytes; mePriv : bytes; meExpire : Z; meAddress : bytes; meToken : bytes }.
(* mix/mixaddr/privkey.go:28-29 KeyMap, a map from [32]byte *)
Definition kmap := list (bytes * mixEntry).
Fixpoint kmGet (k : bytes) (m : kmap) : option mixEntry :=
  match m with [] => None | (k', e) :: m' => if beq k' k then Some e else kmGet k m' end.
Definition kmDel (k : bytes) (m : kmap) : kmap := filter (fun x => negb (beq (fst x) k)) m.
Definition kmSet (k : bytes) (e : mixEntry) (m : kmap) : kmap := (k, e) :: kmDel k m.
Definition ordering := kmap -> kmap.   (* the order in which range visits the keys *)

(* mix/mixaddr/privkey.go:39-51 KeyList: the keys and the statement; xkFiles are the files "keys.<time>" in Safedir *)
Record mixKeys := mkXK { xkMap : kmap; xkStmt : option statement; xkFiles : list (Z * list mixEntry) }.

Fixpoint fileGet (n : Z) (fs : list (Z * list mixEntry)) : option (list mixEntry) :=
  match fs with [] => None | (n', d) :: fs' => if (n' =? n)%Z then Some d else fileGet n fs' end.
Definition fileSet (n : Z) (d : list mixEntry) (fs : list (Z * list mixEntry)) : list (Z * list mixEntry) :=
  (n, d) :: filter (fun x => negb (fst x =? n)%Z) fs.

(* mix/mixaddr/privkey.go:85-96 GetKeyEntry *)
Definition xkGetEntry (now : Z) (pub : bytes) (k : mixKeys) : option mixEntry :=
  match kmGet pub (xkMap k) with Some e => if (meExpire e <? now)%Z then None else Some e | None => None end.
(* mix/mixaddr/privkey.go:70-83 GetPrivateKey *)
Definition xkGetPrivate (now : Z) (pub : bytes) (k : mixKeys) : option bytes :=
  match kmGet pub (xkMap k) with Some e => if (meExpire e <? now)%Z then None else Some (pad32 (mePriv e)) | None => None end.

(* mix/mixaddr/privkey.go:121-138 marshal *)
Definition xkMarshal (ord : ordering) (k : mixKeys) : list mixEntry := map snd (ord (xkMap k)).
(* mix/mixaddr/privkey.go:181-194 expire *)
Definition xkExpire (now : Z) (k : mixKeys) : mixKeys :=
  mkXK (filter (fun x => negb (meExpire (snd x) <? now)%Z) (xkMap k)) (xkStmt k) (xkFiles k).
(* mix/mixaddr/privkey.go:160-173 GetBoundaryTime *)
Definition boundStep (b : Z * Z) (x : bytes * mixEntry) : Z * Z :=
  let (first, last) := b in
  let t := meExpire (snd x) in
  ((if (t <=? first)%Z || (first =? 0)%Z then t else first), (if (last <=? t)%Z || (last =? 0)%Z then t else last)).
Definition xkBoundary (ord : ordering) (k : mixKeys) : Z * Z := fold_left boundStep (ord (xkMap k)) (0%Z, 0%Z).
(* mix/mixaddr/privkey.go:216-219 saveKeys: the error of the write is dropped; [ok] tells whether the write succeeds *)
Definition xkSave (now : Z) (ok : bool) (ord : ordering) (k : mixKeys) : mixKeys :=
  if ok then mkXK (xkMap k) (xkStmt k) (fileSet now (xkMarshal ord k) (xkFiles k)) else k.

Section MixKeys.
Variable M : MixCrypto.
Variable adr : bytes.   (* the fields Address, PrivateKey, Duration and NewKeyFrequency do not change *)
Variable sgn : bytes.
Variable dur freq : Z.

(* mix/mixaddr/privkey.go:221-234 updateStatement *)
Definition meAddr (e : mixEntry) : mixAddr := mkMA (mePub e) (meExpire e) (meAddress e) (meToken e).
Definition xkUpdate (ord : ordering) (k : mixKeys) : mixKeys :=
  mkXK (xkMap k) (Some (mkStatement M (map (fun x => meAddr (snd x)) (ord (xkMap k))) sgn)) (xkFiles k).
(* mix/mixaddr/privkey.go:140-158 Unmarshal of a decodable list *)
Definition xkUnmarshal (now : Z) (es : list mixEntry) (ord : ordering) (k : mixKeys) : mixKeys :=
  xkUpdate ord (xkExpire now (mkXK (fold_left (fun m e => kmSet (pad32 (mePub e)) e m) es []) (xkStmt k) (xkFiles k))).
(* mix/mixaddr/privkey.go:196-214 AddKey and 243-252 genKey: [tExp] is the time read for the expiry, [tFile] the one in
   the name of the file, [priv] the 32 random bytes *)
Definition xkAdd (tExp tFile : Z) (priv : bytes) (ok : bool) (ordSave ordStmt : ordering) (k : mixKeys) : mixKeys :=
  let e := mkME (dhpub M priv) priv (tExp + dur) adr (edpub M sgn) in
  xkUpdate ordStmt (xkSave tFile ok ordSave (mkXK (kmSet (dhpub M priv) e (xkMap k)) (xkStmt k) (xkFiles k))).

(* mix/mixaddr/privkey.go:98-119 Maintain: one turn of the loop.  tkCheck is the time read in the condition, tkNow the next
   one (for lastAdd, or by expire), tkExp and tkFile the ones read by AddKey. *)
Record tick := mkTick { tkCheck : Z; tkNow : Z; tkExp : Z; tkFile : Z; tkPriv : bytes; tkSave : bool; tkOrdSave : ordering; tkOrdStmt : ordering }.
Definition turn (s : Z * mixKeys) (t : tick) : Z * mixKeys :=
  let (lastAdd, k) := s in
  if (lastAdd <? tkCheck t - freq)%Z
  then (tkNow t, xkAdd (tkExp t) (tkFile t) (tkPriv t) (tkSave t) (tkOrdSave t) (tkOrdStmt t) k)
  else (lastAdd, xkExpire (tkNow t) k).
Definition turns (ts : list tick) (s : Z * mixKeys) : Z * mixKeys := fold_left turn ts s.
Definition maintain (ts : list tick) (k : mixKeys) : mixKeys := snd (turns ts (0%Z, k)).
End MixKeys.
