(* What a user without tokens is told: the error of the wallet server as the controller prints it. *)
From Verif Require Import Base Base64Model PrepareModel.
Local Open Scope N_scope.

(* the errors of commands: client.ErrNoUser (serviceguard/client/errors.go:85-86) and the rest, with their texts *)
Inductive cmdErr := ENoUser | EOther (text : bytes).
(* ctrlengine/ctrlengine.go:80-83 *)
Definition noTokens (key : bytes) : bytes :=
  str "Unfortunately, you do not have tokens, yet!" ++ [10] ++ str "Please send your " ++ [10] ++ str "WALLETPUBKEY" ++ [9] ++ key ++ [10]
  ++ str "per email to frank@cryptogroup.net and stay tuned!".
(* ctrlengine/ctrlengine.go:68-87 translateError: the text of the error.  [stored] is the value of WalletKey, empty if there is none, or
   None if the database fails. *)
Definition translateError (stored : option bytes) (e : cmdErr) : res bytes :=
  match e with
  | ENoUser =>
    match stored with
    | None => Ok (noTokens [])
    | Some p => match b64dec p with
      | None => Ok (noTokens [])
      | Some pk => if lenN pk <? 32 then Panic else Ok (noTokens (b64enc (dropN 32 pk)))   (* pk[32:] *)
      end
    end
  | EOther t => Ok t
  end.
(* serviceguard/client/clientlib.go:117-121 splitKey: the public key by which the wallet server knows the user *)
Definition walletPublic (key : bytes) : bytes := takeN 32 (dropN 32 key).
(* the public key used by the wallet that was started with the value stored (ctrlengine/ctrlengine.go:204-229 startWallet) *)
Definition publicUsed (stored : bytes) : res bytes := do k <- decodeWalletKey stored; Ok (walletPublic k).
