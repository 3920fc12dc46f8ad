(* The remaining calls of the mix client: the host of a mix (mix/smtpclient/client.go LookupMX, GetMailDomain), the revocation of a message
   (mix/client/mixrpc.go), the deletion and the expiry of an account and the numbers in the list of messages (mix/client/accountrpc.go).

   Not modelled: net/mail, DNS, HTTP and TLS (parameters), the contents of the authentication tokens (see MixClientModel).
   encoding/json turns each number into a float64; for numbers written as integers the conversion is modelled, for others it is a
   parameter.  A float64 that does not fit into an int64 becomes the least int64, as on amd64. *)
From Verif Require Import Base Base64Model CodecModel JsonModel GuardModel MixModel MixClientModel.
Delimit Scope string_scope with string.
Local Open Scope N_scope.

(* strings.Index(s, "@"), as the text before and after it *)
Fixpoint splitAt (s : bytes) : option (bytes * bytes) :=
  match s with
  | [] => None
  | c :: r => if c =? 64 then Some ([], r) else match splitAt r with Some (a, b) => Some (c :: a, b) | None => None end
  end.
(* mix/smtpclient/client.go:66-76 GetMailDomain; [parse] is mail.ParseAddress: the local part without its quotation marks and the domain,
   which it joins to address.Address *)
Definition getMailDomain (parse : bytes -> option (bytes * bytes)) (addr : bytes) : bytes :=
  match parse addr with
  | None => []
  | Some (l, d) =>
    match splitAt (l ++ 64 :: d) with
    | Some (a, b) => if (0 <? lenN a) && (lenN a + 2 <? lenN a + 1 + lenN b) then b else []
    | None => []
    end
  end.
(* mix/smtpclient/client.go:36-51 LookupMX: [dns] gives the preference and the host of the MX records, or an error; [rnd] is
   rand.Int31() *)
Definition lookupMX (dns : bytes -> option (list (N * bytes))) (rnd : N) (domain : bytes) : res bytes :=
  match domain with
  | [] => Ok []
  | _ =>
    match dns domain with
    | None => Ok domain
    | Some [] => Ok []
    | Some mx =>
      match snd (nth (N.to_nat (rnd mod lenN mx)) mx (0, [])) with
      | [] => Panic                       (* Host[:-1] *)
      | h => Ok (removelast h)
      end
    end
  end.
(* mix/client/mixrpc.go:27-34 getMixAddressReal *)
Definition getMixAddress (parse : bytes -> option (bytes * bytes)) (dns : bytes -> option (list (N * bytes))) (rnd : N) (mix : bytes) : res bytes :=
  do h <- lookupMX dns rnd (getMailDomain parse mix);
  match h with [] => Err "mixclient: no RPC host found" | _ => Ok (h ++ str ":" ++ RPCPort) end.

(* mix/client/mixrpc.go:98-117 RevokeMessage: [get] is HTTPSGet, None an error *)
Definition revokeURL (address id : bytes) : bytes := str "https://" ++ address ++ str "/revoke?revokeid=" ++ hexenc id.
Definition revokeMessage (get : bytes -> option bytes) (address : res bytes) (id : bytes) : res bool :=
  do a <- address;
  match get (revokeURL a id) with
  | None => Err "get"
  | Some body =>
    if 7 <? lenN body then
      if beq (takeN 7 body) (str "REVOKED") then Ok true
      else if beq (takeN 5 body) (str "ERROR") then Err "the answer"
      else Err "mixclient: bad RPC protocol"
    else Err "mixclient: bad RPC protocol"
  end.

(* What JSONRPCRequest gives: the members of the result, or an error with its text; or no client was made. *)
Inductive netAns := NData (data : list (bytes * json)) | NErr (text : bytes) | NNone.
(* the call loops of mix/client/accountrpc.go:83-111 and 139-163: [ans k] is the outcome of the k-th request, [read] looks at the members *)
Section Loop.
Context {A : Type}.
Variable read : list (bytes * json) -> res A.
Variable ans : nat -> netAns.
Fixpoint accLoop (i k : nat) : res A :=
  match ans k with
  | NNone => Err "no client"
  | NData data => read data
  | NErr t =>
    do r <- isReplay t;
    match r with
    | None => Err "the error"
    | Some _ => match i with O => Err "walletauth: replay on authentication" | S i' => accLoop i' (S k) end
    end
  end.
End Loop.
(* mix/client/accountrpc.go:128-134 of delAccount *)
Definition readResult (data : list (bytes * json)) : res bool :=
  match member (str "Result") data with Some (JBool b) => Ok b | _ => Err "mixclient: bad RPC protocol" end.
(* mix/client/accountrpc.go:83-111 DeleteAccount *)
Definition deleteAccount (ans : nat -> netAns) : res unit :=
  do r <- accLoop readResult ans 3 0; if r : bool then Ok tt else Err "mixclient: no match".

(* the nearest float64 to an integer below 2^1024, ties to even *)
Definition f64N (n : N) : N :=
  if n <? 2 ^ 53 then n
  else
    let u := 2 ^ (N.log2 n - 52) in
    let q := n / u in let r := n mod u in
    if (u <? 2 * r) || ((2 * r =? u) && N.odd q) then (q + 1) * u else q * u.
Definition f64 (z : Z) : Z := if (z <? 0)%Z then (- Z.of_N (f64N (Z.to_N (- z))))%Z else Z.of_N (f64N (Z.to_N z)).
Definition minInt64 : Z := (- 2 ^ 63)%Z.
Definition toInt64 (z : Z) : Z := if ((minInt64 <=? z) && (z <? 2 ^ 63))%Z then z else minInt64.
Section Num.
Variable other : bytes -> Z.      (* int64(f) for a number with a fraction, an exponent or more than 19 digits *)
(* int64(v.(float64)) *)
Definition num64 (lex : bytes) : Z :=
  match parseInt lex with Some z => toInt64 (f64 z) | None => other lex end.
Definition asNum (o : option json) : option Z := match o with Some (JNum l) => Some (num64 l) | _ => None end.
Definition asText (o : option json) : option bytes := match o with Some (JStr s) => Some s | _ => None end.
(* mix/client/accountrpc.go:181-187 of accountStat *)
Definition readLoadTime (data : list (bytes * json)) : res Z :=
  match asNum (member (str "LoadTime") data) with Some z => Ok z | None => Err "mixclient: bad RPC protocol" end.
(* mix/client/accountrpc.go:139-163 AccountStat *)
Definition accountStat (ans : nat -> netAns) : res Z := accLoop readLoadTime ans 3 0.
(* mix/client/accountrpc.go:257-290 of listMessages: an element of the list *)
Definition elemOf (j : json) : listElem :=
  match j with
  | JObj o => LObj (asNum (member (str "ReceiveTime") o)) (asNum (member (str "ReceiveTimeNano") o)) (asNum (member (str "ReadTime") o))
                (asText (member (str "UserKey") o)) (asText (member (str "MessageID") o))
  | _ => LOther
  end.
(* mix/client/accountrpc.go:246-306 of listMessages *)
Definition readMessages (data : list (bytes * json)) : res (list msgMeta) :=
  match member (str "Messages") data with Some (JArr l) => listMessages (map elemOf l) | _ => Err "mixclient: bad RPC protocol" end.
End Num.
