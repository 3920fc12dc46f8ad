(* Byte-level message framing: msg/outer.go, msg/inner.go, msg/preheader.go,
   msg/first.go and the size constants of msg/msg.go.  Readers return the parsed
   packet together with the unread rest of the stream. *)
From Verif Require Import Base.
Local Open Scope N_scope.

(* io.ReadFull / binary.Read of a fixed number of bytes. *)
Definition rd (n : N) (s : bytes) : res (bytes * bytes) :=
  match read_full n s with Some p => Ok p | None => Err "EOF" end.
(* binary.Read(r, binary.BigEndian, &uintK) for a K-byte integer *)
Definition rd_be (k : N) (s : bytes) : res (N * bytes) :=
  do (b, s) <- rd k s; Ok (be_dec b, s).

(* msg/outer.go:14-24 *)
Record outer := mkOuter { oType : N; oPLen : N; oCount : N; oInner : bytes }.

(* msg/outer.go:27-33 *)
Definition preHeaderPacket : N := 1.
Definition encryptedHeader : N := 2.
Definition cryptoSetup : N := 4.
Definition hmacPacket : N := 8.
Definition encryptedPacket : N := 16.
(* msg/outer.go:36-43 *)
Definition preHeaderSize : N := 73.
Definition encryptedHeaderSize : N := 7201.
Definition cryptoSetupSize : N := 23.
Definition encryptedPacketSize : N := 12.
Definition signatureSize : N := 76.
Definition hmacSize : N := 71.

(* msg/outer.go:45-52: PLen is uint16(len(inner)) *)
Definition newOuterHeader (ohType count : N) (inner : bytes) : outer :=
  mkOuter ohType (lenN inner mod 2 ^ 16) count inner.
(* msg/outer.go:54-56: uint16 arithmetic *)
Definition outer_size (o : outer) : N := (1 + 2 + 4 + oPLen o) mod 2 ^ 16.
(* msg/outer.go:58-74 *)
Definition outer_write (o : outer) (withInner : bool) : bytes :=
  be 1 (oType o) ++ be 2 (oPLen o) ++ be 4 (oCount o) ++ (if withInner then oInner o else []).
(* msg/outer.go:83-89 *)
Definition outer_type_ok (t : N) : bool :=
  (t =? preHeaderPacket) || (t =? encryptedHeader) || (t =? cryptoSetup) || (t =? hmacPacket)
  || (t =? encryptedPacket).
(* msg/outer.go:76-104 *)
Definition readOuterHeader (s : bytes) : res (outer * bytes) :=
  do (t, s) <- rd_be 1 s;
  if negb (outer_type_ok t) then Err "msg: invalid outer header type"
  else
    do (plen, s) <- rd_be 2 s;
    do (cnt, s) <- rd_be 4 s;
    do (inner, s) <- rd plen s;
    Ok (mkOuter t plen cnt inner, s).

(* msg/inner.go:25-35 *)
Record inner := mkInner { iType : N; iPLen : N; iMore : N; iSkip : N; iContent : bytes }.
(* msg/inner.go:15-23; dataType|signType = 6 *)
Definition paddingType : N := 1.
Definition dataType : N := 2.
Definition signType : N := 4.
Definition signatureType : N := 8.
Definition dataSignType : N := 6.
Definition innerHeaderSize : N := 5.

(* msg/inner.go:37-46 *)
Definition newInnerHeader (ihType : N) (more : bool) (content : bytes) : inner :=
  mkInner ihType (lenN content mod 2 ^ 16) (if more then 1 else 0) 0 content.
(* msg/inner.go:48-50 *)
Definition inner_size (i : inner) : N := 1 + 2 + 1 + 1 + lenN (iContent i).
(* msg/inner.go:52-69 *)
Definition inner_write (i : inner) : bytes :=
  be 1 (iType i) ++ be 2 (iPLen i) ++ be 1 (iMore i) ++ be 1 (iSkip i) ++ iContent i.
(* msg/inner.go:78-83 *)
Definition inner_type_ok (t : N) : bool :=
  (t =? paddingType) || (t =? dataType) || (t =? dataSignType) || (t =? signatureType).
(* msg/inner.go:71-102 *)
Definition readInnerHeader (s : bytes) : res (inner * bytes) :=
  do (t, s) <- rd_be 1 s;
  if negb (inner_type_ok t) then Err "msg: invalid inner header type"
  else
    do (plen, s) <- rd_be 2 s;
    do (more, s) <- rd_be 1 s;
    do (skip, s) <- rd_be 1 s;
    do (content, s) <- rd plen s;
    Ok (mkInner t plen more skip content, s).

(* msg/preheader.go:14-20 *)
Record preHeader := mkPre { pVersion : N; pLenSuite : N; pSuite : bytes; pLenPub : N; pPub : bytes }.
(* msg/msg.go:10-13 *)
Definition Version : N := 1.
Definition headerCiphersuite : bytes := str "CURVE25519 XSALSA20 POLY1305".
(* msg/preheader.go:22-31 *)
Definition newPreHeader (senderHeaderPub : bytes) : preHeader :=
  mkPre Version (lenN headerCiphersuite mod 2 ^ 16) headerCiphersuite
        (lenN senderHeaderPub mod 2 ^ 16) senderHeaderPub.
(* msg/preheader.go:33-55 *)
Definition preheader_write (p : preHeader) : bytes :=
  be 2 (pVersion p) ++ be 2 (pLenSuite p) ++ pSuite p ++ be 2 (pLenPub p) ++ pPub p.
(* msg/preheader.go:57-96 *)
Definition readPreHeader (s : bytes) : res (preHeader * bytes) :=
  do (v, s) <- rd_be 2 s;
  if negb (v =? Version) then Err "msg: invalid message version"
  else
    do (ls, s) <- rd_be 2 s;
    if negb (ls =? lenN headerCiphersuite mod 2 ^ 16) then Err "msg: invalid ciphersuite length"
    else
      do (suite, s) <- rd ls s;
      if negb (beq suite headerCiphersuite) then Err "msg: invalid ciphersuite"
      else
        do (lp, s) <- rd_be 2 s;
        do (pub, s) <- rd lp s;
        Ok (mkPre v ls suite lp pub, s).

(* msg/first.go:22-56: version, pre-header bytes, rest of the stream *)
Definition ReadFirstOuterHeader (s : bytes) : res (N * bytes * bytes) :=
  do (t, s) <- rd_be 1 s;
  if negb (t =? preHeaderPacket) then Err "msg: message does not start with pre-header"
  else
    do (plen, s) <- rd_be 2 s;
    do (cnt, s) <- rd_be 4 s;
    if negb (cnt =? 0) then Err "msg: wrong outer header count"
    else
      do (pre, s) <- rd plen s;
      do (v, _) <- rd_be 2 pre;
      Ok (v, pre, s).
