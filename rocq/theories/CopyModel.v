(* The local copy of a hash chain over time: synchronising with a database that may refuse an entry, showing and deleting the copy
   (cryptengine/hashchain.go:24-110, 515-540), and a key server that only appends.

   syncHashChain of HashChainModel is repeated here with a database that may refuse an entry (a full disk, a locked file);
   PropsCopy proves that it is the same function if the database refuses none. *)
From Coq Require Import String.
From Verif Require Import Base IdentityModel StoreModel SqlModel KeyDBModel HashChainModel.
Local Open Scope N_scope.

Section Copy.
Variable U : Unicode.
(* cryptengine/hashchain.go:93-107: the loop over the received entries; [ok] tells at which positions INSERT works.
   An error of the database ends the loop without an error (line 105). *)
Fixpoint storeDB (ok : N -> bool) (domain : bytes) (i hcPos : N) (es : list (option bytes)) (d : keydb) : res unit * keydb :=
  if hcPos <? i then (Ok tt, d)
  else match es with
  | [] => (Panic, d)
  | None :: _ => (Err "cryptengine: fetch hash chain entry is not a string", d)
  | Some e :: es' =>
    if ok i then
      match addChainEntry U domain i e d with
      | Ok d' => storeDB ok domain (i + 1) hcPos es' d'
      | _ => (Ok tt, d)
      end
    else (Ok tt, d)
  end.
(* cryptengine/hashchain.go:24-110 syncHashChain *)
Definition syncDB (ok : N -> bool) (domain : bytes) (last : res lastReply) (fetch : N -> N -> res chainReply) (d : keydb) : res unit * keydb :=
  match last with
  | Err e => (Err e, d)
  | Panic => (Panic, d)
  | Ok l =>
    match lrEntry l, lrPos l with
    | None, _ => (Err "cryptengine: fetch last hash chain entry reply has the wrong type", d)
    | Some _, None => (Panic, d)
    | Some _, Some hcPos =>
        let go start :=
          match fetch start hcPos with
          | Err e => (Err e, d)
          | Panic => (Panic, d)
          | Ok r =>
            match crEntries r, crFirst r with
            | None, _ => (Err "cryptengine: fetch hash chain entries reply has the wrong type", d)
            | Some _, None => (Panic, d)
            | Some es, Some first => storeDB ok domain first hcPos es d
            end
          end in
        match lastChainPos U domain d with
        | Some pos => if hcPos <=? pos then (Ok tt, d) else go (pos + 1)
        | None => go 0
        end
    end
  end.
(* cryptengine/hashchain.go:515-535 showHashChain: what is printed, and the error *)
Fixpoint showLoop (domain : bytes) (n : nat) (i : N) (d : keydb) : res unit * list bytes :=
  match n with
  | O => (Ok tt, [])
  | S n' => match chainEntry U domain i d with
            | Ok e => let (r, l) := showLoop domain n' (i + 1) d in (r, e :: l)
            | Err e => (Err e, [])
            | Panic => (Panic, [])
            end
  end.
Definition showHashChain (domain : bytes) (d : keydb) : res unit * list bytes :=
  match lastChainPos U domain d with
  | None => (Err "no hash chain entries found for domain", [])
  | Some max => showLoop domain (N.to_nat (max + 1)) 0 d
  end.
(* cryptengine/hashchain.go:537-540 deleteHashChain *)
Definition deleteHashChain (domain : bytes) (d : keydb) : keydb := delChain U domain d.

(* A key server that answers correctly.  It is not part of the repository: KeyHashchain.FetchLastHashChain names the last entry and
   its position, and KeyHashchain.FetchHashChain the entries from the first to the last position asked for. *)
Definition honestLast (ch : list bytes) : res lastReply :=
  match ch with
  | [] => Err "no entry"
  | _ => Ok (mkLast (Some (List.last ch [])) (Some (lenN ch - 1)))
  end.
Definition honestFetch (ch : list bytes) (start stop : N) : res chainReply :=
  Ok (mkChainRep (Some (map Some (takeN (stop + 1 - start) (dropN start ch)))) (Some start)).

(* What may happen: a server appends; the copy is synchronised, where the first or the second call may fail, the server may append
   between them, and the database may refuse entries; the copy is deleted; something else is done to the database. *)
Inductive link := NoLast | NoFetch | Through.
Inductive hev :=
| HGrow (m : bytes) (es : list bytes)
| HSync (domain : bytes) (k : link) (late : list bytes) (ok : N -> bool)
| HDel (domain : bytes)
| HOther (o : kop).
Definition append (m : bytes) (es : list bytes) (ss : bytes -> list bytes) : bytes -> list bytes := fun x => if beq x m then ss x ++ es else ss x.
Definition hsync (domain : bytes) (k : link) (late : list bytes) (ok : N -> bool) (ss : bytes -> list bytes) (d : keydb) : res unit * keydb :=
  let ch := ss (mapDomain U domain) in
  syncDB ok domain (match k with NoLast => Err "no answer" | _ => honestLast ch end)
    (fun a b => match k with NoFetch => Err "no answer" | _ => honestFetch (ch ++ late) a b end) d.
Definition hstep (e : hev) (w : (bytes -> list bytes) * keydb) : (bytes -> list bytes) * keydb :=
  match e with
  | HGrow m es => (append m es (fst w), snd w)
  | HSync dm k late ok => (append (mapDomain U dm) late (fst w), snd (hsync dm k late ok (fst w) (snd w)))
  | HDel dm => (fst w, deleteHashChain dm (snd w))
  | HOther o => (fst w, kstep U (snd w) o)
  end.
Definition hrun (es : list hev) (w : (bytes -> list bytes) * keydb) : (bytes -> list bytes) * keydb := fold_left (fun w e => hstep e w) es w.
End Copy.
