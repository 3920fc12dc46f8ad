(* The way of a message from one user's database to another's: the commands of muteproto around the mix message, the
   nym address, and mutecrypt as mutectrl calls it.  The programs of the mix and of the account server are not part of
   /repo; [mixServer] is the use of the library functions that they are made from. *)
From Verif Require Import Base Base64Model CodecModel JsonModel IdentityModel SqlModel MsgDBModel CryptoModel Asn1Model MixModel MixClientModel CtrlModel PipeModel
  StoreModel KeysModel MsgFormatModel HeaderModel ProtoModel.
Delimit Scope string_scope with string.
Local Open Scope N_scope.

Section Journey.
  Variable U : Unicode.
  Variable M : MixCrypto.

  (* util/nymaddr.go:32-75 NewNymAddress; [mixes] is the answer of GetMixKeys, the package variable MixAddress is set *)
  Definition newNymAddress (mixes : list mixAddr) (secret : bytes) (expire : Z) (single : bool) (minD maxD : Z) (id pubkey server : bytes)
      (now : Z) (rnd : N) (apriv nonce : bytes) : res (bytes * bytes) :=
    do _ <- need (isMapped U id) "ErrNotMapped";
    do box <- mailboxAddress pubkey server;
    do na <- newAddress M (mkTpl secret 0 mixes expire single minD maxD) box (sha256 M id) now rnd apriv nonce;
    do a <- parseAddress now na;
    Ok (naMix a, b64enc na).

  (* mix/client/init.go:40-41 *)
  Definition DefaultSender : bytes := str "client@mute.one".
  (* protoengine/create.go:17-58 with mix/client/send.go:38-57; [cacert] is def.CACert, [date] the time in the mail *)
  Definition protoCreate (cacert : bytes) (minD maxD : Z) (token nymaddress msg : bytes) (now : Z) (date revoke priv nonce : bytes) : res bytes :=
    do message <- fromOpt (b64dec msg) "illegal base64 data";
    do tok <- fromOpt (b64dec token) "illegal base64 data";
    do na <- fromOpt (b64dec nymaddress) "illegal base64 data";
    do (env, mixto) <- newRelay M (mkMH 0 minD maxD (Some tok) [] None) now na message revoke priv nonce;
    Ok (b64enc (moMarshal (createOut (writeMail DefaultSender mixto date env) mixto revoke 587 [] (Some cacert)))).
  (* protoengine/deliver.go:17-37: recipient and text of the mail, and the outcome *)
  Definition protoDeliver (enc : bytes) (e : smtpEnv) : res (bytes * bytes * delivered) :=
    do mm <- fromOpt (b64dec enc) "illegal base64 data";
    let m := moUnmarshal mm in Ok (moTo m, octs (moMsg m), deliver m e).
  (* the mix: mail in, mail and its recipient out *)
  Definition mixServer (lookup : bytes -> option bytes) (now : Z) (epriv from date mail : bytes) : res (bytes * bytes) :=
    do env <- readMail mail;
    do r <- receiveMessage M lookup now env;
    do (out, adr) <- sendMessage M r epriv;
    Ok (writeMail from adr date out, adr).
  (* mix/client/receive.go:45-67 fetchmessage; [body] is the answer of the account server *)
  Definition fetchMessage (body : bytes) : res bytes :=
    if lenN body <? 7 then Err "mixclient: protocol error"
    else if beq (takeN 6 body) (str "ERROR:") then Err "server error"
    else readMail body.

  (* ctrlengine/msg.go:649-713 mutecryptDecrypt with cryptengine/decrypt.go; ErrNoPreHeaderKey is the only error of
     mutecrypt that is treated differently (the model of header.go:225 names it by another text) *)
  Definition cryptDecrypt (a : decArgs) (st : store) (enc : bytes) : dres :=
    match run (receive M a enc) st with
    | (Ok (sender, sig), w) => match parseSender (decryptStatus sender sig) with Ok s => DGot s (wOut w) | _ => DErr end
    | (Err e, _) => if String.eqb e "msg: no pre-header key found" then DNoKey else DErr
    | (Panic, _) => DErr
    end.
End Journey.
