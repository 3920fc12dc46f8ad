(* The identities a message is tried to be decrypted for (cryptengine/decrypt.go:19-37).  Left out: the debug output (line 28). *)
From Verif Require Import Base CryptoModel HeaderModel KeyDBModel UidModel.
Local Open Scope N_scope.

Section Recip.
Variable C : Crypto.
(* cryptengine/decrypt.go:27-36: the loop over the identities *)
Fixpoint recipLoop (ids : list bytes) (d : iddb) : res (list ident) :=
  match ids with
  | [] => Ok []
  | identity :: ids' => do (i, _) <- getOwn C identity true d; do l <- recipLoop ids' d; Ok (i :: l)
  end.
(* cryptengine/decrypt.go:21-37 getRecipientIdentities *)
Definition getRecipientIdentities (d : iddb) : res (list ident) := recipLoop (ownIdentities d) d.
End Recip.
