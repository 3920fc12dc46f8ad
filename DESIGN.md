# Formal model of mute: design

All proofs are in Rocq (Coq 8.16.1) under `rocq/theories`. The Go code in
`/repo` is read as text; it is neither built nor run. The tie between model and
code is the citation (`file:lines`) on every definition.

## Conventions of the model

* Bytes are `N` values below 256; Go strings and byte slices are `list N`.
* Lengths and counters are `N`/`Z`; where Go arithmetic wraps, the wrap is
  written explicitly (`mod 2^16`, `mod 2^64`).
* Go functions returning `(value, error)` become functions into
  `res A := Ok a | Err e | Panic`. `Panic` models a run-time panic (index out of
  range, nil dereference, explicit `panic`).
* Stateful code is a step function on an explicit store. Code with crash points
  is a program that emits a list of atomic effects; the crash states are the
  states after every prefix of that list.
* Cryptographic primitives are fields of records (`Crypto`, `MixCrypto`, …) whose
  other fields are the laws used (lengths, decryption inverts encryption,
  commutativity of Diffie-Hellman). Every theorem quantifies over all instances;
  a concrete instance (`toy`, `toyMix`, …) shows that the laws are satisfiable.
  Collision freeness is never assumed globally (it is false for any fixed-length
  hash); where it matters the theorem either assumes it for the strings that
  actually occur or concludes "equal, or here is a collision".
* Random bytes and clock readings are explicit arguments.
* SQL tables are lists of rows; statements are modelled row by row as SQLite
  executes them, including row-id allocation and `last_insert_rowid`.
* Specifications in the `Props*` files are written without the model's helper
  functions where the property allows it; hypotheses are witnessed by an
  `Example` beside each theorem.

## Layout

`Base`, `Maps`, `Utf8Model` (bytes, results, finite maps, UTF-8);
`*Model.v` (the code model, one definition per Go function);
`*Proofs.v`, `MsgDBSpec/Steps/View/Queue`, `ProtoCases`, `ProtoFirst` (lemmas);
`Props*.v` (the property theorems `Cnn_…`, their examples and a
`Print Assumptions` for each).

A property that the code violates is recorded by a theorem `…_refuted` with a
concrete witness, together with a `…_partial` theorem stating the part that
holds; its manifest status is `partial`.

## Properties

| property | file | what is modelled, how proved | result |
|---|---|---|---|
| C01 Every encrypted message has one fixed size | `PropsProto` | `Encrypt`/`Decrypt` as effect programs over the store; parser round trip and store invariants | proved. Every successful Encrypt writes 65536 characters, for all states of the store; the final length check never fails once the header has its one size (C03). |
| C02 Decryption inverts encryption | `PropsProto` | `Encrypt`/`Decrypt` as effect programs over the store; parser round trip and store invariants | proved. General form with the hypothesis of the property (the recipient's store yields the sender's message key), and for first contact without that hypothesis. |
| C03 The header packet has one fixed size | `PropsHeader` | header and UID JSON byte by byte; length arithmetic | partial. Header packets that are produced always have 7194 bytes, and for UID messages as uid.Create makes them without escrow key every header has exactly 7152 bytes before encryption. The literal claim (same length for all accepted UID messages) is refuted: an escrow key makes the header 16 bytes longer and newHeaderPacket refuses it. |
| C04 Packet framing is a faithful codec | `PropsFormat` | packet readers and writers byte by byte; parser round trip and case analysis on all inputs | proved. Byte-level model of the three packet kinds and the first-header reader. Round trip with arbitrary trailing data, acceptance only of defined types and canonical bytes, every proper prefix rejected, no panic on any input. |
| C05 Both ends of a session derive the same message keys | `PropsKeys` | key derivation over an abstract `Crypto`; induction over key index and refills, invariants over store histories | proved. For every Crypto instance, all key pairs, identities and previous root hashes: after both agreement functions succeed, any interleaving of refills (sender or recipient flavour, any batch size at least 1) and deletions on either side keeps the i-th keys equal. A batch of size 0 is never requested by the code. |
| C06 A message key is handed out at most once | `PropsKeys` | key derivation over an abstract `Crypto`; induction over key index and refills, invariants over store histories | proved. MemStore model; all histories of store operations. The keydb implementation of the same interface is treated separately under C15. |
| C07 A replayed message is rejected | `PropsProto` | `Encrypt`/`Decrypt` as effect programs over the store; parser round trip and store invariants | proved. Any events (encrypt, decrypt of arbitrary bytes, clean-up) may happen between the two presentations. |
| C08 Reflected keys are detected | `PropsKeys` | key derivation over an abstract `Crypto`; induction over key index and refills, invariants over store histories | proved. Both agreement functions succeed exactly when the five public keys are pairwise different, for all inputs; a refusal leaves the store unchanged. |
| C09 Message keys are extended far enough but boundedly | `PropsProto` | `Encrypt`/`Decrypt` as effect programs over the store; parser round trip and store invariants | partial. The bound of 301 keys holds for every announced number. Sufficiency and refusal hold while the announced number plus the batch size fits in 64 bits; for 2^64-1 the rounding overflows, 34 keys are stored and the message still fails. |
| C10 Only authenticated plaintext is released | `PropsProto2` | `Encrypt`/`Decrypt` as effect programs; crash states are prefixes of the effect list; witnesses computed on a toy `Crypto` | partial. False of the code: the content is written before HMAC and signature are checked. Proved for every message with a wrong HMAC that the whole content is released, and, for the partial form, that success implies an authentic body. |
| C11 A rejected message leaves the key store unchanged | `PropsProto2` | `Encrypt`/`Decrypt` as effect programs; crash states are prefixes of the effect list; witnesses computed on a toy `Crypto` | partial. False of the code: a rejected message leaves a new session and session state. Proved: rejected messages never consume a message key, and unopened or unknown-session messages leave the store unchanged. |
| C12 A crash during encryption never leads to key reuse | `PropsProto2` | `Encrypt`/`Decrypt` as effect programs; crash states are prefixes of the effect list; witnesses computed on a toy `Crypto` | partial. False at one crash point (after the output, before the deletion of the message key); proved for every other crash point. |
| C13 A crash during encryption never blocks the conversation | `PropsProto2` | `Encrypt`/`Decrypt` as effect programs; crash states are prefixes of the effect list; witnesses computed on a toy `Crypto` | partial. False between the deletion of the message key and the storing of the counter (all later encryptions fail) and, for the recipient, between storing session and session state (panic on every redelivery). Proved for the other crash points of Encrypt that state and key are found again; the remaining steps of Encrypt do not depend on the store. |
| C14 Conversations follow session changes in step | `PropsConv` | two-party system over `ProtoModel` (`ConvModel`): invariant over all interleavings of sending, receiving, losing and retrying, with ghost tags for the owner and use of every key; induction over executions | partial. Refuted: if one party writes 401 messages of a session without an answer, all delivered in order, message number 400 cannot be decrypted (default number of keys). Proved for all interleavings, session changes, reordering and losses: a message is decrypted exactly if its number is within the stored keys or the refill limit, in particular the first 301 of every session. |
| C15 Extended sessions are readable from the key database | `PropsKeyDB` | SQL tables of `keydb`; refinement to a finite map, witnesses | partial. False: AddSession files the keys of an extension under the last inserted row id instead of the session's. Proved when no session is stored twice; C15_extension_lost shows every key of an extension is unreadable in the usual case. |
| C16 Base64 and hexadecimal encodings are lossless | `PropsCodec` | codecs byte by byte; induction on the input | proved.  |
| C17 Fixed-width integer encodings are lossless | `PropsCodec` | codecs byte by byte; induction on the input | proved.  |
| C18 Decimal digit counting is exact | `PropsCodec` | codecs byte by byte; induction on the input | proved.  |
| C19 Padding has the requested length | `PropsCodec` | codecs byte by byte; induction on the input | proved. AES-CTR key stream is a parameter |
| C20 Message identifiers name their sender | `PropsCodec` | codecs byte by byte; induction on the input | proved.  |
| C21 Long messages survive being cut into chunks | `PropsCodec`, `PropsMime` | codecs byte by byte; induction on the input; mime.go with the parts of net/textproto, net/mail, mime and mime/multipart it uses, byte by byte; induction over header fields, encoded words, parts and attachments, for every order of header fields | proved. C21_chunks: payload and numbering. C21_envelope: decoding the MIME messages of all chunks gives header, piece, count and text; for printable message IDs and if no chosen boundary occurs in the message. |
| C22 Composed messages can be parsed again | `PropsMime` | mime.go with the parts of net/textproto, net/mail, mime and mime/multipart it uses, byte by byte; induction over header fields, encoded words, parts and attachments, for every order of header fields | partial. Refuted: texts with an empty first line cannot be parsed (C22_no_subject: none of them), a leading blank or "=?" in the first line changes the subject. Proved for all other texts, headers, orders of header fields and boundaries. |
| C23 Mail transport preserves the envelope | `PropsCodec` | codecs byte by byte; induction on the input | proved. sender, receiver and date without line breaks |
| C24 Identity mapping is canonical | `PropsCodec` | codecs byte by byte; induction on the input | partial. idempotence is false for non-ASCII domains whose lower-case form is longer than the limit |
| C25 Settings are last-write-wins | `PropsMsgDB` | SQL tables of `msgdb` with all statements; invariants over operation histories | proved. keydb/keyvalue.go is the same code on another database. |
| C26 No outgoing message is lost or duplicated by the out-queue | `PropsMsgDB` | SQL tables of `msgdb` with all statements; invariants over operation histories | partial. False of the raw interface (AddOutQueue accepts a message that is already queued). Proved for all histories in which AddOutQueue is called, as msgSend does, for the message GetUndeliveredMessage returns; submission and non-loss hold for all histories. |
| C27 Queues are first-in first-out | `PropsMsgDB` | SQL tables of `msgdb` with all statements; invariants over operation histories | proved. All histories of database operations. |
| C28 Incoming messages move from the in-queue to the message list exactly once | `PropsMsgDB` | SQL tables of `msgdb` with all statements; invariants over operation histories | proved. Atomicity: the operation is one SQLite transaction. |
| C29 Users of one database are isolated | `PropsMsgDB` | SQL tables of `msgdb` with all statements; invariants over operation histories | partial. False of the raw interface (AddOutQueue does not check the owner of the message). Proved for all histories of permitted operations; operations that name a row number act for the owner of the row. |
| C30 Contact lists reflect the last decision | `PropsIncoming`, `PropsMsgDB` | incoming and outgoing queue loops with interruptions and adversarial peers; SQL tables of `msgdb` with all statements; invariants over operation histories | proved. At the level of the database and of the commands. |
| C31 Contact commands keep what the user entered | `PropsIncoming` | incoming and outgoing queue loops with interruptions and adversarial peers | partial. False: adding a contact never keeps the entered spelling and full name. Proved for editing; blocking loses the spelling. |
| C32 The message-ID cache remembers what it must | `PropsMsgDB` | SQL tables of `msgdb` with all statements; invariants over operation histories | proved.  |
| C33 Fetching never loses a message | `PropsFetch` | message fetching over the database model with interruptions | partial. False: an interruption between storing the message ID and the message loses the message. Proved for interruptions elsewhere. |
| C34 One bad incoming message does not block the others | `PropsIncoming` | incoming and outgoing queue loops with interruptions and adversarial peers | partial. False: an envelope that cannot be decoded blocks the queue for ever. Proved if all envelopes open and all decrypted messages can be filed. |
| C35 An accepted outgoing message is delivered at least once | `PropsCtrl` | contacts, outgoing queue and upkeep of `ctrlengine` over the database model | partial. Proved, except that a message may be handed over twice after a failed QUIT, which is reported as not delivered. |
| C36 Messages from blocked contacts are never shown | `PropsIncoming` | incoming and outgoing queue loops with interruptions and adversarial peers | partial. Blocked senders and visibility proved; false that unknown senders are gray-listed, they become white-listed. |
| C37 Periodic upkeep runs when due | `PropsIncoming` | incoming and outgoing queue loops with interruptions and adversarial peers | proved.  |
| C38 Hash-chain entries are a faithful codec | `PropsHashChain` | hash chain entries, server answers and client processing; induction over chains, collision extraction | proved.  |
| C39 A validated hash chain is tamper evident | `PropsHashChain` | hash chain entries, server answers and client processing; induction over chains, collision extraction | proved. Collision freeness of SHA256 is assumed only for the byte strings hashed in the two chains. |
| C40 Hash-chain synchronisation is complete | `PropsHashChain` | hash chain entries, server answers and client processing; induction over chains, collision extraction | partial. False: a later first position leaves a gap, and database errors are reported as success. Proved without those; known entries never change. |
| C41 A looked-up identity is the one that was asked for | `PropsHashChain` | hash chain entries, server answers and client processing; induction over chains, collision extraction | partial. False: the identity in the message is never compared, and a first key server message needs no server signature, so the key server of one domain can install signature keys for another. Proved: what every stored message is bound to. |
| C42 The newest public key message is used | `PropsKeyDB` | SQL tables of `keydb`; refinement to a finite map, witnesses | proved.  |
| C43 Mix client headers are a faithful codec | `PropsMix` | mix headers, addresses, relay; codec round trips and histories | partial. False for some headers (numbers beyond 32 bits, tokens that look like the absent marker, oversized). Proved for all others. |
| C44 Malformed mix input is rejected, not fatal | `PropsMix` | mix headers, addresses, relay; codec round trips and histories | partial. False: short input panics. Proved: the decoder and the receive functions panic in no other case. |
| C45 A nym address leads back to its owner | `PropsMix` | mix headers, addresses, relay; codec round trips and histories | proved.  |
| C46 Nym addresses do not outlive their mix | `PropsMix` | mix headers, addresses, relay; codec round trips and histories | proved.  |
| C47 A signed mix address list is unambiguous | `PropsMix` | mix headers, addresses, relay; codec round trips and histories | partial. False: the statement image concatenates variable length fields. Proved when the lengths of the fields agree. |
| C48 Relayed messages arrive at the mailbox they were addressed to | `PropsMix` | mix headers, addresses, relay; codec round trips and histories | partial. Delivery through one mix proved; the mailbox of another domain is not respected. |
| C49 A message is delivered at most once after success | `PropsMixClient` | sending, fetching and account RPC against an arbitrary peer | partial. Proved for the outcome Deliver reports, over all runs with storing and reloading. False: an error after the server took the message leads to a second delivery; storing loses messages without CA certificate and with error texts that are not UTF-8. |
| C50 The configuration signature covers exactly the configuration | `PropsConfig` | configuration maps, signatures and their application; injectivity, permutations, histories | proved. Equal signed images of maps with keys and values below 2^32 bytes give equal entries and dates, or a SHA-512 collision of the two images; enumeration order is irrelevant; what is signed is accepted. |
| C51 Configuration never goes back in time | `PropsConfig` | configuration maps, signatures and their application; injectivity, permutations, histories | proved. Over all sequences of updates; also the clock window and the signature of each accepted map. |
| C52 A failed configuration update can be retried | `PropsConfig` | configuration maps, signatures and their application; injectivity, permutations, histories | partial. Refuted: after one update in which no server answered every later update crashes; a failed CA fetch drops the CA certificate. The map and date in use stay. |
| C53 Server choice respects priorities | `PropsConfig` | configuration maps, signatures and their application; injectivity, permutations, histories | proved. For all sorted permutations of the list and all random permutations; also from the configured text. |
| C54 Wallet authentication tokens are a faithful codec | `PropsMixClient` | sending, fetching and account RPC against an arbitrary peer | proved.  |
| C55 Replay errors are recognised without crashing | `PropsMixClient` | sending, fetching and account RPC against an arbitrary peer | partial. False: errors shorter than eleven bytes panic. Proved for all others. |
| C56 A locked token has one holder | `PropsWallet` | wallet store as SQL tables; invariants over histories of all callers | partial. Refuted: ReissueToken goes ahead when LockToken fails (-1 is not 0) and releases the holder's lock; two callers drawing the same clock-seeded lock ID both succeed; the lock query matches any row with the drawn ID. Exclusive until released, deleted or cleaned when lock IDs are fresh. |
| C57 Cleaning releases only stale locks | `PropsWallet` | wallet store as SQL tables; invariants over histories of all callers | partial. Refuted: the limit is now plus the maximum age, so every lock set up to now is released. Stale locks are released and nothing but lock columns changes. |
| C58 Wallet state survives a restart | `PropsWallet` | wallet store as SQL tables; invariants over histories of all callers | partial. Refuted: readCache scans one destination of a two-column query, so nothing stored is ever found after reopening. The codec and the cache of a running store are right. |
| C59 Wallet balances count usable tokens | `PropsWallet` | wallet store as SQL tables; invariants over histories of all callers | proved. For every well-formed wallet, hence every history (good_run): repeated GetAndLockToken with unused lock IDs yields exactly balance many distinct fitting tokens and then ErrNoToken. |
| C60 Tokens are not lost during reissue | `PropsReissue` | token reissue as a program with interruptions and failing services | partial. Refuted: the old token is deleted before the new one is unblinded and stored. Kept until the issuer answers; a successful reissue holds the new token. |
| C61 Only verified signing keys enter the key pool | `PropsKeyPool` | signing keys, pool, tokens, packets; ASN.1 byte by byte; interleavings for locking | proved. Over all sequences of trust, load, lookup, generate and directory load operations; keys generated by the pool itself are signed by its own key. |
| C62 The current signing key is usable | `PropsKeyPool` | signing keys, pool, tokens, packets; ASN.1 byte by byte; interleavings for locking | partial. Refuted: a key stays current until half a lifetime after its expiry. It is never older than that and new keys are fresh, signed and in the pool. |
| C63 A key identifier determines the key | `PropsKeyPool` | signing keys, pool, tokens, packets; ASN.1 byte by byte; interleavings for locking | partial. Refuted: coordinates are concatenated without lengths. Holds if coordinate lengths agree. |
| C64 Token refill has hysteresis and meets its target | `PropsReissue` | token reissue as a program with interruptions and failing services | proved. meetTarget with the map given as a list in iteration order. |
| C65 A key file can be opened with its passphrase | `PropsKeyfile` | key files over a file-system model with crash and power-loss states | proved. Any cipher whose decryption inverts encryption, any key derivation function; a write never replaces an existing file and a successful write reads back the same key. |
| C66 A damaged key file is noticed | `PropsKeyfile` | key files over a file-system model with crash and power-loss states | partial. Refuted: os.File.Read short reads are accepted, so every file of 41 bytes or more (88 are written) is accepted and a wrong key is returned. Files of at most 40 bytes are refused, and reading never panics. |
| C67 Changing the passphrase is crash safe | `PropsKeyfile` | key files over a file-system model with crash and power-loss states | proved. Every intermediate state of replaceKeyfile/Rekey, including every byte prefix of the temporary file and failing create, write, random source and rename. |
| C68 The text buffer shows what was loaded | `PropsTextBuffer` | text buffer and editor; induction over lines and over event histories | partial. Cell, character and rune lookups proved for all texts and width functions of at most 2. Writing back is the identity exactly on valid UTF-8 in which no line starts with a combining rune (theorem is an equivalence); the full claim is refuted by a line starting with a tab. |
| C69 Drawing the editor terminates | `PropsTextBuffer` | text buffer and editor; induction over lines and over event histories | proved. Draw's column loop ends within one step per column and sets every glyph at its first cell and blanks elsewhere; C69_half shows the loop would not end from the second half of a wide character. tcell's ViewPort is not modelled. |
| C70 The cursor stays inside the text | `PropsTextBuffer` | text buffer and editor; induction over lines and over event histories | partial. Refuted: SetContent with a shorter text leaves the cursor outside. After any movement, and after content changes that do not shrink the text, the cursor is inside. |
| C71 Configured server is used for account payments | `PropsMixClient` | sending, fetching and account RPC against an arbitrary peer | partial. False: the default server is always used. Proved: right exactly for that server. |
| C72 A rejected configuration changes nothing | `PropsConfig` | configuration maps, signatures and their application; injectivity, permutations, histories | partial. Refuted: settings are half applied. Success exactly on complete configurations; a later complete one repairs the settings. |
| C73 The reported sender is the owner of the keys | `PropsProto2` | `Encrypt`/`Decrypt` as effect programs; crash states are prefixes of the effect list; witnesses computed on a toy `Crypto` | partial. False of the code: the UID message in the header is not checked against anything. Proved: the signature verifies under the key carried by the message itself. |
| C74 No incoming message makes decryption panic | `PropsProto2` | `Encrypt`/`Decrypt` as effect programs; crash states are prefixes of the effect list; witnesses computed on a toy `Crypto` | partial. False of the code (signed message with unusable signature key; store left behind by a crash). Proved: messages that no identity opens give an error, never a panic. |
| C75 Simultaneous session proposals are resolved | `PropsSession` | session states over `ProtoModel`: what Encrypt and Decrypt do to the states (`SessState`, `SessCount`) for every store and message; two-party executions over `ConvModel` (`ConvDyn`, `ConvStuck`, `ConvRun`, `ConvSimul`): invariants over all later executions and step-by-step exchanges | partial. Refuted: if both parties propose before they see the other's proposal, both wait in the present session for ever, whatever is sent (reset messages excepted), lost or received later. Proved in general (C75_deadlock_partial); a proposal by one party alone leads both to the proposed session (C75_agree_partial). |
| C76 Session states are read back as last written | `PropsKeyDB` | SQL tables of `keydb`; refinement to a finite map, witnesses | proved.  |
| C77 Session keys are read back as last stored | `PropsKeyDB` | SQL tables of `keydb`; refinement to a finite map, witnesses | partial. False: a key stored again after its private half was deleted keeps reading as deleted. Proved when no key is stored twice. |
| C78 Malformed key server answers never crash the client | `PropsHashChain` | hash chain entries, server answers and client processing; induction over chains, collision extraction | partial. False: missing members, too few entries and short ciphertexts panic. Proved: nothing else in the answers does. |
| C79 Mix statements list exactly the usable keys | `PropsMix` | mix headers, addresses, relay; codec round trips and histories | partial. False: it may still list expired keys. Proved: it always verifies and lists every key the mix still holds. |
| C80 Account calls recover from stale counters | `PropsMixClient` | sending, fetching and account RPC against an arbitrary peer | proved.  |
| C81 Malformed message lists are reported | `PropsMixClient` | sending, fetching and account RPC against an arbitrary peer | partial. False: bad hex or a missing message ID truncates the list silently, other elements panic. Proved: the result is a prefix, complete if all elements are well formed. |
| C82 Mix keys are used only from verified statements | `PropsMixClient` | sending, fetching and account RPC against an arbitrary peer | partial. False: the keys are used as received. Proved for AddStatement. |
| C83 The wallet client recovers after a failed call | `PropsMixClient` | sending, fetching and account RPC against an arbitrary peer | partial. False: the kept token makes all later calls fail. Proved while no token is kept. |
| C84 A refused message does not hold up the others | `PropsCtrl` | contacts, outgoing queue and upkeep of `ctrlengine` over the database model | partial. False: the sending loop stops at the refused message, in every later run too. |
| C85 A token request yields a token or an error | `PropsReissue` | token reissue as a program with interruptions and failing services | partial. Refuted: a token deleted between being locked and being read gives nil with a nil error. Holds without interference. |
| C86 Expiring tokens are renewed | `PropsReissue` | token reissue as a program with interruptions and failing services | partial. Refuted: the runner passes a nil owner, whose nil pointers are copied into (panic). The token chosen is right. |
| C87 Stored tokens are read back unchanged | `PropsWallet` | wallet store as SQL tables; invariants over histories of all callers | partial. Refuted for a token whose only reissue state is the new owner's public key. Otherwise read back unchanged over all histories. |
| C88 Installed keys are the configured ones | `PropsConfig` | configuration maps, signatures and their application; injectivity, permutations, histories | partial. Refuted: a one byte trust root is padded and used. 32 byte keys are used unchanged. |
| C89 Clean-up waits for delayed messages | `PropsConfig` | configuration maps, signatures and their application; injectivity, permutations, histories | partial. Refuted for a delay of 2^63; exact below 2^62. |
| C90 A key signature fixes expiry and usage | `PropsKeyPool` | signing keys, pool, tokens, packets; ASN.1 byte by byte; interleavings for locking | partial. Refuted for every signer: one signature is valid for two keys with different expiry and usage. Holds if coordinate lengths agree. |
| C91 Stored signing keys are read back | `PropsKeyPool` | signing keys, pool, tokens, packets; ASN.1 byte by byte; interleavings for locking | proved. Round trip for all keys with a valid UTF-8 usage; the key table over all later writes. |
| C92 Failing to store a signing key is reported | `PropsKeyPool` | signing keys, pool, tokens, packets; ASN.1 byte by byte; interleavings for locking | partial. Refuted: writeFunc returns nil in both branches. With a working database the key is stored and others are kept. |
| C93 The key map is not written during another access | `PropsKeyPool` | signing keys, pool, tokens, packets; ASN.1 byte by byte; interleavings for locking | partial. Refuted: two lookups that fetch write the map under the read lock. No race for any number of threads without a fetch callback. |
| C94 Tokens are a faithful codec | `PropsKeyPool` | signing keys, pool, tokens, packets; ASN.1 byte by byte; interleavings for locking | proved.  |
| C95 A token hash determines the token | `PropsKeyPool` | signing keys, pool, tokens, packets; ASN.1 byte by byte; interleavings for locking | partial. Refuted: sizes are not checked after unmarshalling. Holds for tokens with 32 byte key identifiers and 16 byte nonces. |
| C96 Packet signatures cover the request | `PropsKeyPool` | signing keys, pool, tokens, packets; ASN.1 byte by byte; interleavings for locking | proved.  |
| C97 Changing the passphrase survives a power loss | `PropsKeyfile` | key files over a file-system model with crash and power-loss states | partial. Refuted: the new key file is not synchronised before the rename, so after a power loss no passphrase opens the database. Before the rename the old passphrase keeps working. |
| C98 Creating a database can be repeated after an interruption | `PropsKeyfile` | key files over a file-system model with crash and power-loss states | partial. Refuted: interrupted between key file and database file, neither Open nor Create work. A successful Create can be opened and an existing database is never touched. |
| C99 Attachments arrive as they were attached | `PropsMime` | mime.go with the parts of net/textproto, net/mail, mime and mime/multipart it uses, byte by byte; induction over header fields, encoded words, parts and attachments, for every order of header fields | partial. Refuted: the file name is written unquoted, so a name with a blank or a non-ASCII character makes the whole message unreadable (C99_bad_name, for all messages). Proved for names made of token characters. |
| C100 Parsing a received message never crashes | `PropsMime` | mime.go with the parts of net/textproto, net/mail, mime and mime/multipart it uses, byte by byte; induction over header fields, encoded words, parts and attachments, for every order of header fields | partial. Refuted: every composed message cut 4 bytes before its end crashes Parse (C100_crash). DecodeChunk never crashes; Parse only at a later part that cannot be read. |
| C101 A message that was cut off is not accepted as complete | `PropsMime` | mime.go with the parts of net/textproto, net/mail, mime and mime/multipart it uses, byte by byte; induction over header fields, encoded words, parts and attachments, for every order of header fields | partial. Refuted: cut after a boundary line, the message is accepted without the attachments that follow (C101_dropped). For every cut, what is accepted has the full header, subject and text and complete first attachments. |
| C102 The private session key is deleted once the session is in use | `PropsSession` | session states over `ProtoModel`: what Encrypt and Decrypt do to the states (`SessState`, `SessCount`) for every store and message; two-party executions over `ConvModel` (`ConvDyn`, `ConvStuck`, `ConvRun`, `ConvSimul`): invariants over all later executions and step-by-step exchanges | proved.  |
| C103 No sent message is forgotten by the counters | `PropsSession` | session states over `ProtoModel`: what Encrypt and Decrypt do to the states (`SessState`, `SessCount`) for every store and message; two-party executions over `ConvModel` (`ConvDyn`, `ConvStuck`, `ConvRun`, `ConvSimul`): invariants over all later executions and step-by-step exchanges | proved.  |
| C104 A message only touches the session state of its own conversation | `PropsSession` | session states over `ProtoModel`: what Encrypt and Decrypt do to the states (`SessState`, `SessCount`) for every store and message; two-party executions over `ConvModel` (`ConvDyn`, `ConvStuck`, `ConvRun`, `ConvSimul`): invariants over all later executions and step-by-step exchanges | proved.  |
| C105 Simultaneous first messages end in one session | `PropsSession` | session states over `ProtoModel`: what Encrypt and Decrypt do to the states (`SessState`, `SessCount`) for every store and message; two-party executions over `ConvModel` (`ConvDyn`, `ConvStuck`, `ConvRun`, `ConvSimul`): invariants over all later executions and step-by-step exchanges | proved.  |
| C106 New identities are accepted | `PropsUid` | UID and KeyInit messages, the own-identity and KeyInit tables and the commands on them (`UidModel`); invariant over all command sequences that every stored row is a good identity with its private keys; induction over histories of key changes and over later commands | proved.  |
| C107 Histories of key changes verify | `PropsUid` | UID and KeyInit messages, the own-identity and KeyInit tables and the commands on them (`UidModel`); invariant over all command sequences that every stored row is a good identity with its private keys; induction over histories of key changes and over later commands | proved.  |
| C108 Own identities survive in the key database | `PropsUid` | UID and KeyInit messages, the own-identity and KeyInit tables and the commands on them (`UidModel`); invariant over all command sequences that every stored row is a good identity with its private keys; induction over histories of key changes and over later commands | proved.  |
| C109 Deleting a nym removes all its key material | `PropsUid` | UID and KeyInit messages, the own-identity and KeyInit tables and the commands on them (`UidModel`); invariant over all command sequences that every stored row is a good identity with its private keys; induction over histories of key changes and over later commands | partial. refuted: delete removes one row; after a key change the old keys stay and become current again; holds for nyms with one row |
| C110 A failed registration can be repeated | `PropsUid` | UID and KeyInit messages, the own-identity and KeyInit tables and the commands on them (`UidModel`); invariant over all command sequences that every stored row is a good identity with its private keys; induction over histories of key changes and over later commands | partial. refuted: the reply is stored before it is verified and every later attempt is refused; holds if nothing was stored |
| C111 A confirmation is for the message that was sent | `PropsUid` | UID and KeyInit messages, the own-identity and KeyInit tables and the commands on them (`UidModel`); invariant over all command sequences that every stored row is a good identity with its private keys; induction over histories of key changes and over later commands | partial. refuted: the decrypted message is compared with itself; what is checked instead is proved |
| C112 Honest key server replies are accepted | `PropsUid` | UID and KeyInit messages, the own-identity and KeyInit tables and the commands on them (`UidModel`); invariant over all command sequences that every stored row is a good identity with its private keys; induction over histories of key changes and over later commands | proved.  |
| C113 KeyInit messages are accepted until they expire | `PropsUid` | UID and KeyInit messages, the own-identity and KeyInit tables and the commands on them (`UidModel`); invariant over all command sequences that every stored row is a good identity with its private keys; induction over histories of key changes and over later commands | proved.  |
| C114 Private keys of published KeyInit messages are found | `PropsUid` | UID and KeyInit messages, the own-identity and KeyInit tables and the commands on them (`UidModel`); invariant over all command sequences that every stored row is a good identity with its private keys; induction over histories of key changes and over later commands | proved.  |
| C115 Only signed KeyInit messages are used | `PropsUid` | UID and KeyInit messages, the own-identity and KeyInit tables and the commands on them (`UidModel`); invariant over all command sequences that every stored row is a good identity with its private keys; induction over histories of key changes and over later commands | partial. refuted: Verify is never called and the anchor is encrypted under public data; what Verify would establish is proved |
| C116 The KeyInit message fetched last is used | `PropsUid` | UID and KeyInit messages, the own-identity and KeyInit tables and the commands on them (`UidModel`); invariant over all command sequences that every stored row is a good identity with its private keys; induction over histories of key changes and over later commands | partial. refuted: the first stored message is used for ever; holds for the first one |
| C117 Expired KeyInit messages are not used | `PropsUid` | UID and KeyInit messages, the own-identity and KeyInit tables and the commands on them (`UidModel`); invariant over all command sequences that every stored row is a good identity with its private keys; induction over histories of key changes and over later commands | partial. refuted: no time is checked; the stored key is used for ever |
| C118 No server answer crashes the client | `PropsUid` | UID and KeyInit messages, the own-identity and KeyInit tables and the commands on them (`UidModel`); invariant over all command sequences that every stored row is a good identity with its private keys; induction over histories of key changes and over later commands | partial. refuted: anchors shorter than 16 bytes panic; exact condition and absence otherwise proved |
| C119 Key entries made by the package verify | `PropsUid` | UID and KeyInit messages, the own-identity and KeyInit tables and the commands on them (`UidModel`); invariant over all command sequences that every stored row is a good identity with its private keys; induction over histories of key changes and over later commands | partial. refuted for signature keys (typo ED25510); holds for DH keys; exact acceptance condition proved |
| C120 Signed nonces | `PropsUid` | UID and KeyInit messages, the own-identity and KeyInit tables and the commands on them (`UidModel`); invariant over all command sequences that every stored row is a good identity with its private keys; induction over histories of key changes and over later commands | proved.  |
| C121 Generating a nym takes effect or is refused | `PropsUid` | UID and KeyInit messages, the own-identity and KeyInit tables and the commands on them (`UidModel`); invariant over all command sequences that every stored row is a good identity with its private keys; induction over histories of key changes and over later commands | partial. refuted for nyms with a key change; holds for nyms not in the database |
| C122 Keys follow the protocol description | `PropsDoc` | the message protocol against a separate definition of the key schedule, packet layout and header of `doc/messages.md` (in the Props file), over `ProtoModel`, `MsgFormatModel` and `HeaderModel`; resets over two-party executions (`ConvModel`) | proved. the cut of chain keys to 32 bytes is not in the description |
| C123 Messages are laid out as documented | `PropsDoc` | the message protocol against a separate definition of the key schedule, packet layout and header of `doc/messages.md` (in the Props file), over `ProtoModel`, `MsgFormatModel` and `HeaderModel`; resets over two-party executions (`ConvModel`) | proved.  |
| C124 Header contents and verification | `PropsDoc` | the message protocol against a separate definition of the key schedule, packet layout and header of `doc/messages.md` (in the Props file), over `ProtoModel`, `MsgFormatModel` and `HeaderModel`; resets over two-party executions (`ConvModel`) | proved.  |
| C125 A reset is honoured | `PropsDoc` | the message protocol against a separate definition of the key schedule, packet layout and header of `doc/messages.md` (in the Props file), over `ProtoModel`, `MsgFormatModel` and `HeaderModel`; resets over two-party executions (`ConvModel`) | partial. refuted: the recipient keeps its state and goes on using the lost session; proved for every message under an unknown session with a state that did not start from a KeyInit |
| C126 The keychain hash is checked | `PropsDoc` | the message protocol against a separate definition of the key schedule, packet layout and header of `doc/messages.md` (in the Props file), over `ProtoModel`, `MsgFormatModel` and `HeaderModel`; resets over two-party executions (`ConvModel`) | partial. refuted: the field is not looked at |
| C127 Session key cleanup | `PropsDoc` | the message protocol against a separate definition of the key schedule, packet layout and header of `doc/messages.md` (in the Props file), over `ProtoModel`, `MsgFormatModel` and `HeaderModel`; resets over two-party executions (`ConvModel`) | proved. for the memory store; the cryptengine version is not implemented and nothing calls either |
| C128 Fetch dialogue | `PropsPipe` | the fetch dialogue of mutectrl and muteproto as a transition system of two processes with goroutines and pipes (`PipeModel`), invariant and decreasing measure over all interleavings; status lines of mutecrypt; conversations (`ConvModel`) for the reply address | proved.  |
| C129 The sender identity reaches the in-queue unchanged | `PropsPipe` | the fetch dialogue of mutectrl and muteproto as a transition system of two processes with goroutines and pipes (`PipeModel`), invariant and decreasing measure over all interleavings; status lines of mutecrypt; conversations (`ConvModel`) for the reply address | partial. refuted: domains may contain tabs and line breaks; exactly the identities without tab, line break and final CR arrive unchanged |
| C130 A peer's reply address cannot stop the user from sending | `PropsPipe` | the fetch dialogue of mutectrl and muteproto as a transition system of two processes with goroutines and pipes (`PipeModel`), invariant and decreasing measure over all interleavings; status lines of mutecrypt; conversations (`ConvModel`) for the reply address | partial. refuted: an empty address makes the status line unreadable and blocks sending; holds for non-empty base64 text |
| C131 A message reaches the receiver's message list | `PropsDelivery`, `PropsJourney` | composition of the conversation (`ConvModel`), the transport (`PropsJourney`), the status line (`PipeModel`) and the in-queue loop (`CtrlModel`) over every database history; the way of a message through muteproto, mix and account server (`JourneyModel`) composed from the models of `mix/*`; sizes and byte ranges of every intermediate form | partial. refuted: a message beyond C14's number of unanswered messages is fetched and its envelope opened, but it never becomes a message and blocks the queue (C131_stuck); transport for all inputs; delivery for messages in reach, a welcome sender and an identity that the status line can carry |
| C132 A new database passphrase was entered twice | `PropsPassphrase` | `bufio.Scanner` with the memory of its buffers (`ScanModel`): slices are positions, so later reads change them; invariants for every way of cutting the input into pieces; rekeying of both databases composed with `KeyfileModel` | partial. refuted: two different lines of the same length from 2048 to 4095 bytes, read in two pieces, are accepted, because the second is read over the first; no input gives an empty passphrase; holds for input up to 2048 bytes |
| C133 Rekeying uses the passphrases that were entered | `PropsPassphrase` | `bufio.Scanner` with the memory of its buffers (`ScanModel`): slices are positions, so later reads change them; invariants for every way of cutting the input into pieces; rekeying of both databases composed with `KeyfileModel` | partial. refuted: with passphrases of 1365 to 2047 bytes read in one piece the old one is overwritten by the new one; holds for input up to 2048 bytes |
| C134 Rekeying keeps both databases under one passphrase | `PropsPassphrase` | `bufio.Scanner` with the memory of its buffers (`ScanModel`): slices are positions, so later reads change them; invariants for every way of cutting the input into pieces; rekeying of both databases composed with `KeyfileModel` | partial. refuted: if the second step fails the databases have different passphrases, and long passphrases make it fail; a success, and the way back, are proved |
| C135 Passphrases are overwritten in memory | `PropsPassphrase` | `bufio.Scanner` with the memory of its buffers (`ScanModel`): slices are positions, so later reads change them; invariants for every way of cutting the input into pieces; rekeying of both databases composed with `KeyfileModel` | partial. refuted for creating and rekeying: the deferred bzero.Bytes gets the nil slices; holds for opening if the line fits into the first buffer |
| C136 Commands use a recent, signed configuration | `PropsPrepare` | the start of every `mutectrl` command (`PrepareModel`): the stored configuration, its age, fetching, the wallet key, and processes as state machines; invariants over all sequences of commands, failed writes, restarts and server answers | partial. refuted if the write of the time fails once: the configuration is then never fetched again; holds for all sequences if database writes succeed |
| C137 mutectrl uses the stored configuration | `PropsPrepare` | the start of every `mutectrl` command (`PrepareModel`): the stored configuration, its age, fetching, the wallet key, and processes as state machines; invariants over all sequences of commands, failed writes, restarts and server answers | partial. refuted: an entry that another process removed stays in use; holds for a process that starts |
| C138 The stored configuration never gets older and is usable | `PropsPrepare` | the start of every `mutectrl` command (`PrepareModel`): the stored configuration, its age, fetching, the wallet key, and processes as state machines; invariants over all sequences of commands, failed writes, restarts and server answers | partial. dates and signatures hold for all sequences; refuted: a configuration is stored before it is known to be usable |
| C139 --offline makes no connection | `PropsPrepare` | the start of every `mutectrl` command (`PrepareModel`): the stored configuration, its age, fetching, the wallet key, and processes as state machines; invariants over all sequences of commands, failed writes, restarts and server answers | partial. refuted: the lines of a session started with --offline go online, and upkeep fetchconf ignores the option; holds for single commands and for sessions that repeat the option |
| C140 A failed fetch of the configuration does no lasting harm | `PropsPrepare` | the start of every `mutectrl` command (`PrepareModel`): the stored configuration, its age, fetching, the wallet key, and processes as state machines; invariants over all sequences of commands, failed writes, restarts and server answers | partial. refuted: after no server answered the next fetch in the session crashes; a new process recovers |
| C141 Outdated programs are told so, and refused after 14 days | `PropsPrepare` | the start of every `mutectrl` command (`PrepareModel`): the stored configuration, its age, fetching, the wallet key, and processes as state machines; invariants over all sequences of commands, failed writes, restarts and server answers | partial. holds for dates that can be parsed; refuted for the last clause: without such a date every command except upkeep update is refused |
| C142 Only private keys of 64 bytes are used as wallet key | `PropsPrepare` | the start of every `mutectrl` command (`PrepareModel`): the stored configuration, its age, fetching, the wallet key, and processes as state machines; invariants over all sequences of commands, failed writes, restarts and server answers | partial. refuted: shorter and longer keys are padded or cut, and a short one crashes db create at its end |
| C143 The delays are at least a minute and in order | `PropsPrepare` | the start of every `mutectrl` command (`PrepareModel`): the stored configuration, its age, fetching, the wallet key, and processes as state machines; invariants over all sequences of commands, failed writes, restarts and server answers | partial. refuted: the check is done on 64 bits and the values are cut to 32; holds for values below 2^31 |
| C144 The programs share one configuration | `PropsPrepare` | the start of every `mutectrl` command (`PrepareModel`): the stored configuration, its age, fetching, the wallet key, and processes as state machines; invariants over all sequences of commands, failed writes, restarts and server answers | partial. refuted if the file cannot be written once; holds for all sequences with working writes |
| C145 db create creates everything or nothing | `PropsLogin` | `mutectrl db create` composed from `KeyfileModel`, `ScanModel` and `PrepareModel`; the server of the app mode as a state machine over all request sequences | partial. refuted: if the configuration cannot be fetched the command can never be repeated; a success is proved for passphrases of up to about 1000 bytes |
| C146 The pages of the app are served to the last login only | `PropsLogin` | `mutectrl db create` composed from `KeyfileModel`, `ScanModel` and `PrepareModel`; the server of the app mode as a state machine over all request sequences | partial. refuted: an empty cookie gets every page, also before any login; holds for all other values and all sequences |
| C147 Only the passphrase of the database logs in | `PropsLogin` | `mutectrl db create` composed from `KeyfileModel`, `ScanModel` and `PrepareModel`; the server of the app mode as a state machine over all request sequences | partial. refuted: once the database is open any passphrase logs in and replaces the kept one; holds while the database is closed |
| C148 No answer of a guard server crashes the client | `PropsGuard` | the clients of the service guard (`GuardModel`): answers of the servers as JSON values, blind signatures as a record of functions, the client as a state machine; an invariant over all sequences of operations and answers (whom the client trusts), built on `KeyPoolModel` and `WalletModel`; the runner as threads with a lock and a channel | partial. refuted: members of other JSON types crash the client; holds for answers whose members have the expected types; for the wallet's GetToken exactly the crashing answers are given |
| C149 The list of verification keys is the one the trust root signed | `PropsGuard` | the clients of the service guard (`GuardModel`): answers of the servers as JSON values, blind signatures as a record of functions, the client as a state machine; an invariant over all sequences of operations and answers (whom the client trusts), built on `KeyPoolModel` and `WalletModel`; the runner as threads with a lock and a channel | partial. refuted: parts of the signed list of other lengths are padded or cut, the empty list is the zero key; the signature check and proper lists are proved |
| C150 A client trusts the currently listed keys only | `PropsGuard` | the clients of the service guard (`GuardModel`): answers of the servers as JSON values, blind signatures as a record of functions, the client as a state machine; an invariant over all sequences of operations and answers (whom the client trusts), built on `KeyPoolModel` and `WalletModel`; the runner as threads with a lock and a channel | partial. refuted: keys are never removed and old lists are accepted; each trusted key stood in some list signed by the trust root, for all histories |
| C151 A verified token was signed with the key it names | `PropsGuard` | the clients of the service guard (`GuardModel`): answers of the servers as JSON values, blind signatures as a record of functions, the client as a state machine; an invariant over all sequences of operations and answers (whom the client trusts), built on `KeyPoolModel` and `WalletModel`; the runner as threads with a lock and a channel | partial. refuted: online the lookup server may answer with another key, which is then used; everything else, and the named key when offline, is proved for all histories |
| C152 Received tokens are good, owned and new | `PropsGuard` | the clients of the service guard (`GuardModel`): answers of the servers as JSON values, blind signatures as a record of functions, the client as a state machine; an invariant over all sequences of operations and answers (whom the client trusts), built on `KeyPoolModel` and `WalletModel`; the runner as threads with a lock and a channel | partial. refuted: a token without owner crashes the client, a removed token is received again, received tokens can never be reissued; the conditions of a success are proved |
| C153 Every token stored by a wallet verifies | `PropsGuard` | the clients of the service guard (`GuardModel`): answers of the servers as JSON values, blind signatures as a record of functions, the client as a state machine; an invariant over all sequences of operations and answers (whom the client trusts), built on `KeyPoolModel` and `WalletModel`; the runner as threads with a lock and a channel | partial. refuted: signatures are not checked when storing; usage, expiry, owner and the replacement of the old token are proved |
| C154 A reissue request is consistent and accepted by the issuer | `PropsGuard` | the clients of the service guard (`GuardModel`): answers of the servers as JSON values, blind signatures as a record of functions, the client as a state machine; an invariant over all sequences of operations and answers (whom the client trusts), built on `KeyPoolModel` and `WalletModel`; the runner as threads with a lock and a channel | partial. refuted for tokens without owner; proved for tokens with an owner |
| C155 The runner can be started, used and stopped | `PropsGuard` | the clients of the service guard (`GuardModel`): answers of the servers as JSON values, blind signatures as a record of functions, the client as a state machine; an invariant over all sequences of operations and answers (whom the client trusts), built on `KeyPoolModel` and `WalletModel`; the runner as threads with a lock and a channel | partial. refuted: StopRunner never returns, a second Runner blocks the lock for ever; mutual exclusion and one runner are proved for all interleavings |
| C156 Different issuers have different addresses | `PropsGuard` | the clients of the service guard (`GuardModel`): answers of the servers as JSON values, blind signatures as a record of functions, the client as a state machine; an invariant over all sequences of operations and answers (whom the client trusts), built on `KeyPoolModel` and `WalletModel`; the runner as threads with a lock and a channel | proved.  |
| C157 A created nym is complete | `PropsNym` | the uid commands of mutectrl (`NymModel`) as functions on one world of message database, private keys, wallet and servers, with an explicit outcome for every step outside the process; relations kept by every step are lifted through the commands to all histories | proved.  |
| C158 A failed uid new can be repeated | `PropsNym` | the uid commands of mutectrl (`NymModel`) as functions on one world of message database, private keys, wallet and servers, with an explicit outcome for every step outside the process; relations kept by every step are lifted through the commands to all histories | partial. refuted: after a lost answer of the key server or a refused key init the ID is registered and can never be created; proved possible while the ID is not registered |
| C159 A refused registration is reported | `PropsNym` | the uid commands of mutectrl (`NymModel`) as functions on one world of message database, private keys, wallet and servers, with an explicit outcome for every step outside the process; relations kept by every step are lifted through the commands to all histories | partial. refuted: no error of the registration ever reaches the user (the private UID is deleted and the key init then fails with "no privkey for nym found"), and a Message token stays locked |
| C160 The active nym exists | `PropsNym` | the uid commands of mutectrl (`NymModel`) as functions on one world of message database, private keys, wallet and servers, with an explicit outcome for every step outside the process; relations kept by every step are lifted through the commands to all histories | partial. refuted by deleting the active nym; proved for all histories in which the active nym is not deleted |
| C161 uid delete removes the nym and its keys and accounts | `PropsNym` | the uid commands of mutectrl (`NymModel`) as functions on one world of message database, private keys, wallet and servers, with an explicit outcome for every step outside the process; relations kept by every step are lifted through the commands to all histories | partial. refuted: if mutecrypt fails the keys and accounts stay and the command cannot be repeated, and keys of earlier failed uid new stay; what a successful uid delete removes is proved |
| C162 uid commands lose no tokens | `PropsNym` | the uid commands of mutectrl (`NymModel`) as functions on one world of message database, private keys, wallet and servers, with an explicit outcome for every step outside the process; relations kept by every step are lifted through the commands to all histories | partial. refuted: if mutecrypt dies the UID and Message tokens are deleted unused; a token spent without answer blocks uid new (C162_stuck); no token is lost if mutecrypt does not die |
| C163 The key store of the program answers like the one of the tests | `PropsKeystore` | Encrypt and Decrypt once more over an abstract session store (`KeystoreModel`; with the in-memory store they are the functions of `ProtoModel` by computation); a simulation between the in-memory store and the key database, proved operation by operation and composed (`KeystoreProofs`); an invariant of the key database for sending on new connections (`KeystoreLimit`) | partial. refuted by 51 messages with the default settings: all leave over the in-memory store, 50 over the key database; the same answers are proved for all sequences of calls that do not extend a session or store a session key twice |
| C164 At most fifty messages per session | `PropsKeystore` | Encrypt and Decrypt once more over an abstract session store (`KeystoreModel`; with the in-memory store they are the functions of `ProtoModel` by computation); a simulation between the in-memory store and the key database, proved operation by operation and composed (`KeystoreProofs`); an invariant of the key database for sending on new connections (`KeystoreLimit`) | proved. at most n messages per session, failing calls write nothing, and all calls fail once the keys are used up; a first proposal of a next session made only after the n-th message is excluded by hypothesis |
| C165 A mix always has a published key, if keys live long enough | `PropsMixKeys` | the key list of a mix with its files and the maintenance loop (`MixKeysModel`), every reading of the clock and every order of map iteration an argument; invariants over all sequences of turns | proved. the signed list always names a usable key if keys live at least as long as the frequency plus the distance of two turns; otherwise there is a hole with no key (C165_hole); clock monotonic, JSON and int64 arithmetic simplified |
| C166 Expired private keys of a mix are gone | `PropsMixKeys` | the key list of a mix with its files and the maintenance loop (`MixKeysModel`), every reading of the clock and every order of map iteration an argument; invariants over all sequences of turns | partial. refuted: every saved private key stays in its file (C166_files), and no key is removed from memory when the turns are further apart than the frequency (C166_never); proved for the memory otherwise |
| C167 A restarted mix has its keys again | `PropsMixKeys` | the key list of a mix with its files and the maintenance loop (`MixKeysModel`), every reading of the clock and every order of map iteration an argument; invariants over all sequences of turns | partial. proved if every write succeeds; refuted for a write that fails, since its error is ignored |
| C168 Boundary times of the mix keys | `PropsMixKeys` | the key list of a mix with its files and the maintenance loop (`MixKeysModel`), every reading of the clock and every order of map iteration an argument; invariants over all sequences of turns | proved. minimum and maximum for all orders of map iteration |
| C169 A contact is added exactly after its key was looked up and verified | `PropsDialog` | the dialogue of mutectrl with the command loop of mutecrypt (`DialogModel`): words, lines and flags as text, what the operations do is a parameter; a general lemma on a list of requests, refinement to five operations in order | partial. proved for identities without white space and error texts whose first line is not READY.; refuted for the identity "bob@x --help", which may arrive as sender of a message (nothing is looked up, the contact is added and white-listed), and for a server error text with the expected lines |
| C170 mutecrypt executes only the commands of the dialogue | `PropsDialog` | the dialogue of mutectrl with the command loop of mutecrypt (`DialogModel`): words, lines and flags as text, what the operations do is a parameter; a general lemma on a list of requests, refinement to five operations in order | partial. proved under the hypotheses of C169_partial; refuted for an identity with a newline, which MapPlus accepts |
| C171 Ctrl+C ends mutecrypt and mutectrl | `PropsShutdown` | an interleaving model of main, signal handler and engine with their channels (`ShutdownModel`); inductive invariants over all interleavings and a decreasing measure | partial. proved once the callback is registered; refuted for a signal between signal.Notify and the registration: handler and main wait for each other for ever |
| C172 Ctrl+C does not crash the process | `PropsShutdown` | an interleaving model of main, signal handler and engine with their channels (`ShutdownModel`); inductive invariants over all interleavings and a decreasing measure | partial. proved without a signal; refuted: the engine uses its database after the handler set it to nil, and two goroutines run Close at the same time |
| C173 Exit status and database at the end of the process | `PropsShutdown` | an interleaving model of main, signal handler and engine with their channels (`ShutdownModel`); inductive invariants over all interleavings and a decreasing measure | partial. the status is proved for all interleavings; the closing without a signal, refuted with one (a database opened after Close stays open) |
| C174 msg read shows the message as a mail and marks only it | `PropsView` | msg read, list, add and delete and mail input (`ViewModel`) over the models of the message database and of mail headers; a lemma on reading any header fields without line ends, and an invariant on the stored subjects over all histories | partial. proved for every message text if the names have no line ends; refuted for a contact name with line ends (adds fields) and for a first line that looks like an encoded word |
| C175 msg add stores the text once for a white-listed contact | `PropsView` | msg read, list, add and delete and mail input (`ViewModel`) over the models of the message database and of mail headers; a lemma on reading any header fields without line ends, and an invariant on the stored subjects over all histories | proved.  |
| C176 A mail is taken as message with its subject and recipient | `PropsView` | msg read, list, add and delete and mail input (`ViewModel`) over the models of the message database and of mail headers; a lemma on reading any header fields without line ends, and an invariant on the stored subjects over all histories | partial. proved which field is taken and that a shown message with a plain first line is taken back; refuted: an encoded subject is not decoded, and a contact shown with its name cannot be answered |
| C177 msg list shows each message of the user in one line | `PropsView` | msg read, list, add and delete and mail input (`ViewModel`) over the models of the message database and of mail headers; a lemma on reading any header fields without line ends, and an invariant on the stored subjects over all histories | partial. proved for addresses without tab and line end; refuted for a domain with a line end |
| C178 After an update from source, the installed programs are of the commit in the signed configuration | `PropsUpdate` | the update from source as a sequence of steps on a git repository, release/head.go and the installed programs (`UpdateModel`), each step with its own failure; inversion of a successful run, an invariant on the repository over all failing runs | partial. Full hash as release.Commit (missing: other names of a commit, for which it is false: C178_refuted). |
| C179 No update is done when the running program is up to date or newer, and a successful update is not repeated | `PropsUpdate` | the update from source as a sequence of steps on a git repository, release/head.go and the installed programs (`UpdateModel`), each step with its own failure; inversion of a successful run, an invariant on the repository over all failing runs | partial. First part in full; second part for a full hash, refuted for tags. |
| C180 A failed update from source can be repeated and then installs the commit | `PropsUpdate` | the update from source as a sequence of steps on a git repository, release/head.go and the installed programs (`UpdateModel`), each step with its own failure; inversion of a successful run, an invariant on the repository over all failing runs | partial. As long as mutectrl was not replaced (missing: a last go install that fails half-way, for which it is false: C180_refuted). |
| C181 A signing key that was issued is found again after a restart | `PropsPoolStore` | the chain of storage callbacks built by RegisterStorage over key directories and key tables, each call with its own failures (`PoolStoreModel`); induction over the number of storages and over histories with restarts | partial. Any chain of storages, failures and restarts, with one directory or one table that never refuses. Missing (and refuted): key files written in part, foreign files, tables that refuse. |
| C182 A signing key is found by its identifier in any key table that has it | `PropsPoolStore` | the chain of storage callbacks built by RegisterStorage over key directories and key tables, each call with its own failures (`PoolStoreModel`); induction over the number of storages and over histories with restarts | partial. Storages that hold keys of the history only (missing: other contents, for which it is false: C182_refuted). |
| C183 Loading storages puts only verified keys into the key pool | `PropsPoolStore` | the chain of storage callbacks built by RegisterStorage over key directories and key tables, each call with its own failures (`PoolStoreModel`); induction over the number of storages and over histories with restarts | proved. For all contents of storages. |
| C184 Requests about a domain go to its key server | `PropsCache` | the cache of key server clients and the commands that use it (`CacheModel`); an invariant that ties the cache to the history of requests, over all sequences of commands, networks and answers | partial. refuted: caps get or caps show with a host redirects all later requests about the domain, and the port of caps get is ignored without a host; holds if no command names another host or port. |
| C185 Only announced methods are called and nothing crashes | `PropsCache` | the cache of key server clients and the commands that use it (`CacheModel`); an invariant that ties the cache to the history of requests, over all sequences of commands, networks and answers | partial. The first part is proved; refuted: a server that announces no signature keys crashes the command, and this is the only crash. |
| C186 Refreshing the capabilities replaces those of one server | `PropsCache` | the cache of key server clients and the commands that use it (`CacheModel`); an invariant that ties the cache to the history of requests, over all sequences of commands, networks and answers | partial. The part on caps get is proved; refuted: caps show shows what is cached from another host. |
| C187 Key servers are asked over TLS with the own certificate | `PropsCache` | the cache of key server clients and the commands that use it (`CacheModel`); an invariant that ties the cache to the history of requests, over all sequences of commands, networks and answers | partial. refuted: an address with another scheme in the configuration is used without encryption; all other requests use https and the certificate. |
| C188 The generated release file names the commit checked out | `PropsGenerate` | the text written by mutegenerate and the scan that compares commits (`GenerateModel`); lemmas on lines and prefixes of the text, an invariant over all sequences of runs, the JSON parser of `JsonModel` run on the release file | partial. proved for all sequences of complete runs in one mode; refuted: after a run without -r the run with -r for the same commit keeps the Go code (cut writes: C190). |
| C189 The generator leaves a current file alone | `PropsGenerate` | the text written by mutegenerate and the scan that compares commits (`GenerateModel`); lemmas on lines and prefixes of the text, an invariant over all sequences of runs, the JSON parser of `JsonModel` run on the release file | partial. proved for the Go file; refuted for the release file, which is written at each run. |
| C190 A release file written in part is repaired | `PropsGenerate` | the text written by mutegenerate and the scan that compares commits (`GenerateModel`); lemmas on lines and prefixes of the text, an invariant over all sequences of runs, the JSON parser of `JsonModel` run on the release file | partial. the prefixes that are repaired are exactly those that end before the last digit of the commit; refuted: a run on a full disk ends with status 0 and the file is never repaired. |
| C191 A message is reported as revoked exactly if the mix says so | `PropsMixRPC` | the remaining calls of the mix client over arbitrary sequences of answers (`MixRPCModel`), with the rounding of integers to float64; induction over the call loop and over the list of messages | partial. proved for answers with something after the word; refuted: the answer REVOKED alone is a protocol error. |
| C192 A mix is asked at its primary mail host | `PropsMixRPC` | the remaining calls of the mix client over arbitrary sequences of answers (`MixRPCModel`), with the rounding of integers to float64; induction over the call loop and over the list of messages | partial. proved if all mail hosts have the same preference; refuted: a backup host may be chosen, and an at sign in the local part changes the domain. |
| C193 Deletion and expiry of an account are reported as the server said | `PropsMixRPC` | the remaining calls of the mix client over arbitrary sequences of answers (`MixRPCModel`), with the rounding of integers to float64; induction over the call loop and over the list of messages | proved.  |
| C194 The list of messages has the times the server sent | `PropsMixRPC` | the remaining calls of the mix client over arbitrary sequences of answers (`MixRPCModel`), with the rounding of integers to float64; induction over the call loop and over the list of messages | partial. proved but for the time in nanoseconds, which is off by at most 128 ns until 2043; refuted for two messages that come out with the same time. |
| C195 The passphrase entered at mutectrl is the passphrase of both databases | `?`, `PropsHand` | ; the pipe between mutectrl and mutecrypt (`HandModel`) on top of the scanner of `ScanModel`; an exact description of what is read, and an invariant over histories of creating and rekeying | partial. refuted for a passphrase that ends in CR: the key database gets the passphrase without it; every command opens both databases all the same, for passphrases of at most 681 bytes. The private key is handed over exactly. |
| C196 A key found by the lookup service is genuine and kept | `PropsRemote` | the lookup service registered as a storage (`RemoteModel`) on the chain of `PoolStoreModel`; invariants of pool and storages over all histories of lookups and restarts | partial. genuine: proved for all histories. Kept: proved if the first storage works, for storages that were empty; refuted if the storage refuses (the error is dropped), in the second of expiry, and if a table holds a row that is no key. |
| C197 The local copy of a hash chain follows the key server | `PropsCopy` | the local copy of a hash chain over histories (`CopyModel`), refining the synchronisation of `HashChainModel`; a relation between the rows of the table and a first part of the chain of the server, kept by every event | partial. following, growing, completeness if the database takes the entries, deletion, validity: proved. That success means a complete copy is refuted for a database that refuses an entry (the error is dropped). |
| C198 mutecrypt and muteproto understand mutectrl | `PropsCli` | the command lines built by mutectrl read by the option parser of the started program (`CliModel`, parser of `DialogModel`); computation with the values left symbolic, number formats and word splitting by lemmas | partial. Every process except db vacuum is proved to be understood, for all values; lines for the loop of mutecrypt only for values without white space. False for db vacuum: mutectrl hands on --auto-vacuum, an option that is commented out in mutecrypt, so the command always fails and the key database is never rebuilt (C198_refuted, C198_vacuum). |
| C199 The sequential fuzzer tries every bit once | `PropsFuzz` | the fuzzer as a loop over bit positions with a test function that has a state (`FuzzModel`); induction over the loop, bits of bytes by lemmas on lxor | proved.  |
| C200 Comparing session states | `PropsEqual` | comparison over a memory with pointers (`EqualModel`) against equality of contents; case analysis field by field | partial. The answers are proved right for all states. It does not always answer: if exactly one of two otherwise equal states has a key for the next session, a nil pointer is dereferenced (C200_refuted). The function is only used in tests. |
| C201 Every own nym is tried when a message is decrypted, and a key change loses no messages | `PropsRecip` | the list of identities built from the own rows of the key database (`RecipModel` over `UidModel`); invariant of the rows from C108, a lemma per command that the encryption key is kept, induction over the commands | proved.  |
| C202 The cursor of the editor is shown at its place and can reach every cell | `PropsEditor` | drawing with the reversed cells recorded (`EditorModel` over `TextBufferModel`), reduced to the drawing of C69; the columns visited by induction over the glyphs; keys as movements, induction over key presses | partial. Proved except for one place: in the second column of a wide character the cursor is never shown (C202_half), and one press of the right arrow key moves it there (C202_refuted). Scrolling and clipping by tcell are not modelled. |
| C203 Vacuum sets the mode that was asked for | `PropsVacuum` | state of the file and of the connection, statements of SQLite as functions with their failures as arguments (`VacuumModel`); invariants over every history by induction; `C198_vacuum` instantiated with it | partial. Proved for connections on which no VACUUM failed since they were opened. After one that failed the mode asked for stays pending, and the next Vacuum for the present mode sets it (C203_refuted). How many pages the driver frees in one call, and the behaviour of the SQLite statements, are assumptions of the model. |
| C204 A key entry hands out the keys it is said to hold | `PropsKeyEntry` | key entries as objects with their cached key pairs and flags (`KeyEntryModel`); invariant of the cache and of the private key by induction over the calls; refinement to the function without cache in `KeysModel` | partial. Proved for all sequences of calls whose key generation succeeds, except that a signature entry whose PUBKEY has the wrong size hands out 32 zero bytes (C204_refuted). After generating a key failed, an entry that had one panics (C204_failed_refuted). |
| C205 The log is written to the file it should be written to | `PropsLog` | the element of the configuration as text, read by a model of the attribute reader of encoding/xml (`LogModel`, quoting from `GenerateModel`); induction over the characters of the path | partial. Proved for printable ASCII paths without quotation marks, backslashes, ampersands and less-than signs. Backslashes are doubled, a less-than sign or an ampersand that starts no entity keeps the program from starting (C205_refuted), and an entity in the path names another file (C205_other_refuted). The reading of the XML text is a model of encoding/xml. |
| C206 A user without tokens is told the public key of the wallet | `PropsNoTokens` | the message next to the key the wallet uses (`NoTokensModel`, `decodeWalletKey` from `PrepareModel`); base64 is injective, lengths | partial. The key named is the one used exactly for private keys of 64 bytes. A longer key, which db create accepts, gives another public key than the one used (C206_refuted); with less than 32 bytes, or nothing stored, the program crashes (C206_empty_refuted). |
| C207 The completion offers the commands in the words that run them | `PropsComplete` | trees of commands as a nested inductive type (`CompleteModel`), the words that run a command as an inductive predicate; induction over the derivation and over the tree | partial. Proved for trees of two levels, which is what mutectrl has. On a third level only the last two words are kept, and the line offered runs nothing (C207_refuted); what is offered in general is in C207_offered. |

## What is modelled and what is not

Modelled function by function (citations in the files): `encode`, `util/digits`,
`msg/padding`, `msg` (packet formats, header, key derivation, Encrypt, Decrypt),
`msg/session` with `memstore`, `uid/identity`, `uid` (key entries, UID messages,
replies, KeyInit messages) with the `cryptengine` commands on them, `msg/msgid`, `msg/mime`, `mix/client` mail transport, `msgdb`,
`keydb`, `keyserver/hashchain` and the key lookup of `cryptengine`, `mix/*`
(nym addresses, mix addresses, relay messages, sending and fetching, account
RPC), the queue loops, contacts and upkeep of `ctrlengine`, its dialogues with
`muteproto` (create, deliver, fetch) and `mutecrypt`, `serviceguard`
(wallet store, reissue, signing keys, key pool, tokens, packets, locking),
`configclient` and `def.InitMute`, `encdb` key files and database creation,
reading of passphrases with the buffers of `bufio.Scanner` (`ScanModel`),
the preparation of commands, `db create` and the app server of `ctrlengine` (`PrepareModel`),
the clients of the service guard (`GuardModel`), the uid commands of `mutectrl` with the
servers they use (`NymModel`), Encrypt and Decrypt on the key database with the
key store of `cryptengine` (`KeystoreModel`), the keys of a mix over time (`MixKeysModel`),
the command loop of `mutecrypt` as `mutectrl` uses it to add a contact (`DialogModel`),
the end of `mutecrypt` and `mutectrl` with `util/interrupt` (`ShutdownModel`), the commands `msg read`, `list`, `add`, `delete` and mail input (`ViewModel`), the storages of a key pool (`PoolStoreModel`), the cache of key servers in `mutecrypt` (`CacheModel`), `mutegenerate` (`GenerateModel`), the host of a mix, revocation and the account calls (`MixRPCModel`; net/mail and DNS are parameters), the update from source (`UpdateModel`; git and the go tool by their effect on the repository and the installed programs),
`util/…` text buffer and editor widgets.

Not modelled: network and TLS code, the inside of cryptographic primitives and
of SQLite/SQLCipher, command-line parsing, log output, the Go scheduler (where
locking matters an explicit interleaving model is used), garbage collection and
memory limits, time zones. Where the Go standard library matters
(`encoding/json`, `encoding/asn1`, `encoding/base64`, `net/textproto`,
`bufio`, `unicode/utf8`, `sort`), the part used by the code is modelled; what it leaves
out is said at the definition:

* JSON (`JsonModel`): parser and printer for the values the code exchanges;
  printing escapes as `encoding/json` does for the characters that can occur;
  object members are looked up up to ASCII letter case; numbers are unsigned
  integers.
* ASN.1 (`Asn1Model`): DER of the structures used by `serviceguard`; lengths as
  Go writes and accepts them.
* `net/textproto` (`CodecModel`): header lines without continuation lines.
* `net/mail`, `mime`, `mime/multipart` (`MimeModel`): header fields with
  continuation lines, encoded words, media types, the multipart writer and
  reader. The address parser, the extension table and quoting of unprintable
  strings are a record of laws with an instance; see the head of the file.
* `unicode.ToLower` (`IdentityModel`): a record of the laws used; the concrete
  excerpt contains the exceptions that matter.

## Mutation tests

`seeded/LOG.jsonl` lists the wrong programs that were tried: the definition
edited, the edit, the claim it breaks, the theorems whose proof then failed
(found by admitting every failing proof and asking `Print Assumptions`), and the
theorems that were tightened because they still went through.

## Trusted base

* Coq's kernel (including its virtual machine for `vm_compute`).
* What `Print Assumptions` lists for each theorem. For all 690 theorems named in
  `MANIFEST.json` it prints `Closed under the global context`: no axioms, neither
  own nor from the standard library.
* The faithfulness of the model to the cited lines, with the simplifications
  stated there and above.
