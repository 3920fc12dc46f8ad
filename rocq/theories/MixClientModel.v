(* The client side of the mix and account servers: mix/client, mix/smtpclient,
   serviceguard/common/walletauth and serviceguard/client/walletrpc.
   Network and server answers are arguments; error values are represented by their text. *)
From Verif Require Import Base Base64Model CodecModel CryptoModel Asn1Model MixModel.
Local Open Scope N_scope.

(* ------------------------------------------------------------------ *)
(* strconv.ParseInt(s, 10, 64) and strconv.Atoi (64-bit int) *)
Definition parseInt (s : bytes) : option Z :=
  match s with
  | [] => None
  | c :: r =>
    let neg := c =? 45 in
    let ds := if (c =? 45) || (c =? 43) then r else s in
    match parse_dec ds with
    | None => None
    | Some n => if neg then (if n <=? 2 ^ 63 then Some (- Z.of_N n)%Z else None)
                else (if n <? 2 ^ 63 then Some (Z.of_N n) else None)
    end
  end.

(* serviceguard/common/walletauth/walletauth.go:41-52 CreateToken; [rand] is 32 random bytes, [now] the time *)
Definition createToken (C : Crypto) (priv : bytes) (now counter : N) (rand : bytes) : bytes :=
  let body := edpub C priv ++ rand ++ be 8 (now / 3600) ++ be 8 counter in
  body ++ edsign C priv body.
(* serviceguard/common/walletauth/walletauth.go:54-71 CheckToken *)
Definition checkToken (C : Crypto) (t : bytes) : res (bytes * N * N) :=
  if negb (lenN t =? 144) then Err "walletauth: bad token"
  else if edverify C (takeN 32 t) (takeN 80 t) (dropN 80 t)
  then Ok (takeN 32 t, be_dec (takeN 8 (dropN 64 t)), be_dec (takeN 8 (dropN 72 t)))
  else Err "walletauth: bad signature".
(* serviceguard/common/walletauth/walletauth.go:79-91 IsReplay: Some n is ErrReplay with counter n, None the original error *)
Definition isReplay (e : bytes) : res (option N) :=
  let p := str "ErrReplay: " in
  if lenN e <? lenN p then Panic
  else if beq (takeN (lenN p) e) p then
    match parseInt (dropN (lenN p) e) with
    | Some z => Ok (Some (Z.to_N (z mod 2 ^ 64)))
    | None => Ok None
    end
  else Ok None.

(* ------------------------------------------------------------------ *)
(* The answer to one request, as the callers below see it. *)
Inductive answer := AOk | AReplay (n : N) | AErr.
(* mix/client/accountrpc.go:22-45 (also 82-111, 137-163, 197-222) and mix/client/receive.go:18-43: the call loop.
   [ask] is the server: its state, the counter of the token, the answer and its new state.
   Returns the counters used, whether the call succeeded and the state of the server. *)
Section Loop.
Variable S : Type.
Variable ask : S -> N -> answer * S.
Fixpoint callLoop (i : nat) (last : N) (s : S) : list N * bool * S :=
  let c := (last + 1) mod 2 ^ 64 in
  let (a, s') := ask s c in
  match a with
  | AOk => ([c], true, s')
  | AErr => ([c], false, s')
  | AReplay n =>
    match i with
    | O => ([c], false, s')
    | Datatypes.S i' => let '(cs, r, s'') := callLoop i' n s' in (c :: cs, r, s'')
    end
  end.
Definition mixCall (now : N) (s : S) : list N * bool * S := callLoop 3 now s.

(* serviceguard/client/walletrpc/client.go:49-73 and 115-139: the loop of the wallet client, which keeps the last
   counter and, after an error, the last token; a token is represented by its counter. *)
Record wclient := mkWC { wcCounter : N; wcToken : option N }.
Fixpoint walletLoop (i : nat) (last : N) (w : wclient) (s : S) : list N * bool * wclient * S :=
  let c := match wcToken w with Some t => t | None => (last + 1) mod 2 ^ 64 end in
  let (a, s') := ask s c in
  match a with
  | AOk => ([c], true, w, s')
  | AErr => ([c], false, mkWC (wcCounter w) (Some c), s')
  | AReplay n =>
    let w' := mkWC n (wcToken w) in
    match i with
    | O => ([c], false, mkWC n (Some c), s')
    | Datatypes.S i' => let '(cs, r, w'', s'') := walletLoop i' n w' s' in (c :: cs, r, w'', s'')
    end
  end.
Definition walletCall (w : wclient) (s : S) : list N * bool * wclient * S := walletLoop 3 (wcCounter w) w s.
End Loop.
Arguments callLoop {S} ask i last s.
Arguments mixCall {S} ask now s.
Arguments walletLoop {S} ask i last w s.
Arguments walletCall {S} ask w s.

(* ------------------------------------------------------------------ *)
(* mix/client/accountrpc.go:47-56 payAccount: the URL contacted.  Line 52 tests the result variable [server],
   which is still empty, instead of the argument [serverKnown]. *)
Definition DefaultAccountServer : bytes := str "rr.accounts.mute.one".
Definition RPCPort : bytes := str "2080".
Definition accountURL (server : bytes) : bytes := str "https://" ++ server ++ str ":" ++ RPCPort ++ str "/account".
Definition payAccountURL (serverKnown : bytes) : bytes :=
  let server := [] in
  accountURL (match server with [] => DefaultAccountServer | _ => server end).

(* mix/client/accountrpc.go:224-306 listMessages: an element of "Messages"; None is a missing or wrongly typed field *)
Inductive listElem := LOther | LObj (rt rtn rd : option Z) (uk mi : option bytes).
Record msgMeta := mkMeta { mmID : bytes; mmTime : Z; mmNano : Z; mmRead : Z; mmKey : bytes }.
(* returns the list and the error left in the outer variable err; the assignments after line 277 are to an inner err *)
Fixpoint listLoop (l : list listElem) : res (list msgMeta * bool) :=
  match l with
  | [] => Ok ([], false)
  | LOther :: _ => Panic
  | LObj rt rtn rd uk mi :: r =>
    match rt, rtn, rd, uk with
    | Some rt, Some rtn, Some rd, Some uks =>
      match hexdec uks with
      | None => Ok ([], false)
      | Some k =>
        match mi with
        | None => Ok ([], false)
        | Some mis =>
          match hexdec mis with
          | None => Ok ([], false)
          | Some m => do (t, e) <- listLoop r; Ok (mkMeta m rt rtn rd (pad32 k) :: t, e)
          end
        end
      end
    | _, _, _, _ => Ok ([], true)
    end
  end.
Definition listMessages (l : list listElem) : res (list msgMeta) :=
  do (m, e) <- listLoop l; if e : bool then Err "mixclient: protocol error" else Ok m.

(* mix/client/receive.go:45-67 fetchmessage, the error path *)
Definition fetchError (body : bytes) : res (option N) :=
  if lenN body <? 7 then Ok None
  else if beq (takeN 6 body) (str "ERROR:") then isReplay (dropN 7 body) else Ok None.

(* mix/client/mixrpc.go:79-95 GetMixKeys returns the addresses of the statement as received; util/nymaddr.go:49-63 passes
   them on as candidates.  mix/mixaddr/addrlist.go:114-137 Append and AddStatement are the checked way. *)
Definition getMixKeys (s : statement) : list mixAddr := stAddrs s.
Definition adlAppend (now : Z) (adl l : list mixAddr) : list mixAddr := adl ++ filter (fun a => (now <? maExpire a)%Z) l.
Definition addStatement (M : MixCrypto) (now : Z) (adl : list mixAddr) (s : statement) : list mixAddr :=
  if stVerify M s then adlAppend now adl (stAddrs s) else adl.

(* ------------------------------------------------------------------ *)
(* mix/smtpclient/client.go:78-99 parseError *)
Inductive smtpErr := SFinal | SRetry | SRaw (t : bytes).
Definition parseError (t : bytes) : smtpErr :=
  let s := trim t in
  match index_byte 32 s with
  | Some pos =>
    if 0 <? pos then
      match parseInt (takeN pos s) with
      | Some code => if (500 <=? code)%Z then SFinal else SRetry
      | None => SRaw t
      end
    else SRaw t
  | None => SRaw t
  end.
(* What the network does during one SendMail: whether a host is found, the error of each step (None: success) *)
Record smtpEnv := mkEnv {
  seHost : bool; seDial : option bytes; seTLS : bool; sePem : bytes -> bool; seStart : option bytes;
  seMail : option bytes; seRcpt : option bytes; seData : option bytes; seWrite : option bytes; seClose : option bytes; seQuit : option bytes }.
Definition ErrNoHost := str "smtpclient: no host".
Definition ErrNoTLS := str "smtpclient: no TLS".
(* mix/smtpclient/client.go:101-199 SendMail without user and password, NoSSL false: result (error and LastError), and
   whether the server took the message (the end of DATA was acknowledged) *)
Fixpoint smtpSteps (l : list (option bytes)) (k : option (smtpErr * bytes) * bool) : option (smtpErr * bytes) * bool :=
  match l with
  | [] => k
  | Some t :: _ => (Some (parseError t, t), false)
  | None :: r => smtpSteps r k
  end.
Definition sendMail (ca : option bytes) (smart : bytes) (e : smtpEnv) : option (smtpErr * bytes) * bool :=
  let transfer :=
    smtpSteps [seMail e; seRcpt e; seData e; seWrite e; seClose e]
      (match seQuit e with Some t => Some (parseError t, t) | None => None end, true) in
  if (match smart with [] => negb (seHost e) | _ => false end) then (Some (SFinal, ErrNoHost), false)
  else match seDial e with
  | Some t => (Some (SRetry, t), false)
  | None =>
    if seTLS e then
      if (match ca with Some c => negb (sePem e c) | None => false end) then (Some (SFinal, ErrNoTLS), false)
      else smtpSteps [seStart e] transfer
    else match ca with Some _ => (Some (SFinal, ErrNoTLS), false) | None => transfer end
  end.

(* mix/client/send.go:25-36 MessageOutput *)
Record msgOut := mkMO { moMsg : option bytes; moTo : bytes; moFrom : bytes; moRevoke : option bytes; moPort : Z; moHost : bytes; moCA : option bytes; moErr : option bytes; moResend : bool }.
Definition errText (e : smtpErr) (last : bytes) : bytes := match e with SFinal => last | SRetry => str "smtpclient: retry" | SRaw t => t end.
(* mix/client/send.go:59-101 Deliver: new state, error, whether SendMail was called, and whether the server took the message *)
Record delivered := mkDel { dlState : msgOut; dlErr : option bytes; dlTried : bool; dlTaken : bool }.
Definition deliver (m : msgOut) (e : smtpEnv) : delivered :=
  if moResend m then
    match sendMail (moCA m) (moHost m) e with
    | (None, taken) => mkDel (mkMO None [] [] (moRevoke m) 0 [] None None false) None true taken
    | (Some (SFinal, last), taken) => mkDel (mkMO (moMsg m) (moTo m) (moFrom m) (moRevoke m) (moPort m) (moHost m) (moCA m) (Some last) false) (Some last) true taken
    | (Some (k, last), taken) => let t := errText k last in
        mkDel (mkMO (moMsg m) (moTo m) (moFrom m) (moRevoke m) (moPort m) (moHost m) (moCA m) (Some t) true) (Some t) true taken
    end
  else match moMsg m with
  | None => mkDel m (Some (str "mixclient: already sent")) false false
  | Some _ => mkDel m (moErr m) false false
  end.
(* mix/client/send.go:119-141 Marshal and 143-164 Unmarshal.  Simplified: when asn1.Unmarshal fails, the fields
   it decoded before the error are left empty here. *)
Definition octs (o : option bytes) : bytes := match o with Some b => b | None => [] end.
Definition moFields (m : msgOut) : list dv :=
  [DOct (octs (moMsg m)); DStr (moTo m); DStr (moFrom m); DOct (octs (moRevoke m)); DInt (moPort m); DStr (moHost m); DOct (octs (moCA m));
   DStr (match moErr m with Some e => e | None => str "nil" end); DBool (moResend m)].
Definition moTypes := [TOct; TStr; TStr; TOct; TInt64; TStr; TOct; TStr; TBool].
Definition moMarshal (m : msgOut) : bytes := match derMarshal (moFields m) with Some d => d | None => [] end.
Definition moUnmarshal (d : bytes) : msgOut :=
  match derUnmarshal moTypes d with
  | Ok [DOct msg; DStr to; DStr from; DOct rev; DInt port; DStr host; DOct ca; DStr err; DBool re] =>
    mkMO (Some msg) to from (Some rev) port host (Some ca) (if beq err [] || beq err (str "nil") then None else Some err) re
  | _ => mkMO None [] [] None 0 [] None (Some (str "asn1 error")) false
  end.
Definition reload (m : msgOut) : msgOut := moUnmarshal (moMarshal m).
(* mix/client/send.go:38-57 Create, from the relay message and the address of the mix *)
Definition createOut (mail to revoke : bytes) (port : Z) (host : bytes) (ca : option bytes) : msgOut :=
  mkMO (Some mail) to (str "client@mute.one") (Some revoke) port host ca None true.

(* A life of an envelope. *)
Inductive moOp := ODeliver (e : smtpEnv) | OReload.
Fixpoint moRun (ops : list moOp) (m : msgOut) : list delivered :=
  match ops with
  | [] => []
  | ODeliver e :: r => let d := deliver m e in d :: moRun r (dlState d)
  | OReload :: r => moRun r (reload m)
  end.
