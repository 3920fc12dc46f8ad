{"id": "C01", "title": "Every encrypted message has one fixed size", "statement": "Whenever encryption of a message reports success, the number of bytes written to the output is exactly 65536 base64 characters, whatever the content (of any length up to the maximum content length 41691), whether or not it is signed, whatever status code it carries and whatever session it belongs to; content that is longer is refused.", "quantifier": "all contents, both signing modes, all status codes, all session states for which encryption succeeds", "why_tests_cant": "There are 41692 content lengths times the signing modes times the session states; a test samples a handful of lengths and an off-by-one in a padding constant shows only for some of them.", "anchors": ["msg/encrypt.go:Encrypt", "msg/msg.go:MaxContentLength,EncodedMsgSize,UnencodedMsgSize", "msg/padding/padding.go:Generate", "msg/outer.go", "msg/inner.go"]}
{"id": "C02", "title": "Decryption inverts encryption", "statement": "If a message is encrypted by a sender and the recipient holds the matching message key, decryption of exactly those bytes reports success, yields exactly the original content, and reports a signature exactly when the sender supplied a signing key.", "quantifier": "all contents up to the maximum length, signed and unsigned, all keys, nonces and session counters for which the two stores agree", "why_tests_cant": "The round trip crosses seven nested length-prefixed packets whose sizes depend on the content; unit tests try a few contents.", "anchors": ["msg/encrypt.go:Encrypt", "msg/decrypt.go:Decrypt", "msg/outer.go", "msg/inner.go"]}
{"id": "C03", "title": "The header packet has one fixed size", "statement": "For all sender identities, nym addresses, counters, optional next keys and UID messages that are accepted when a header is built, the serialised header has the same length, so the encrypted header packet never leaks which optional fields are present or how long the variable fields are.", "quantifier": "all combinations of identity length, nym address length, presence of either optional next key, all 64-bit counters and all UID message lengths within the limits", "why_tests_cant": "The padding formula has one term per variable field; a test with typical values cannot see a wrong term for a rare combination (20-digit counters, both next keys missing, maximal address).", "anchors": ["msg/header.go:newHeader,newHeaderPacket", "util/digits/digits.go:Count"]}
{"id": "C04", "title": "Packet framing is a faithful codec", "statement": "Serialising any outer packet, inner packet or pre-header and parsing the bytes gives back the same packet and leaves the rest of the stream untouched; the parser accepts only the defined packet types, and reports an error on every truncated input.", "quantifier": "all packets of every type, all payloads shorter than 65536 bytes, all trailing data and all truncation points", "why_tests_cant": "Round trip over all payloads and all truncation points is unbounded.", "anchors": ["msg/outer.go", "msg/inner.go", "msg/preheader.go", "msg/first.go:ReadFirstOuterHeader"]}
{"id": "C05", "title": "Both ends of a session derive the same message keys", "statement": "When sender and recipient agree on the root key, the i-th sending key of one side equals the i-th receiving key of the other and vice versa, for every i, and this stays true when either side extends its key list any number of times in batches of any size; each side files the keys under the session name it later computes from its own and the peer key hashes (own first).", "quantifier": "all root keys, identities, session keys, all indices and all sequences of extensions on either side", "why_tests_cant": "Agreement must hold for every index and every refill schedule; tests derive a few keys once.", "anchors": ["msg/keys.go:generateMessageKeys,deriveRootKey", "msg/encrypt.go:rootKeyAgreementSender", "msg/decrypt.go:rootKeyAgreementRecipient", "msg/session/session.go:CalcKey"]}
{"id": "C06", "title": "A message key is handed out at most once", "statement": "Once a message key has been deleted, no later request for the same session, direction and number ever returns a key, whatever other session operations (including extending the session) happen in between; keys of other sessions, directions and numbers are unaffected by the deletion.", "quantifier": "all histories of session-store operations, all sessions, directions and numbers", "why_tests_cant": "Forward secrecy is a statement about every later operation sequence.", "anchors": ["msg/session/memstore/memstore.go:StoreSession,GetMessageKey,DelMessageKey", "keydb/session.go"]}
{"id": "C07", "title": "A replayed message is rejected", "statement": "After a message has been decrypted successfully, presenting the same bytes again is rejected, no matter which other messages were encrypted or decrypted in between.", "quantifier": "all ciphertexts and all histories between the two presentations", "why_tests_cant": "Needs an argument over every intermediate history.", "anchors": ["msg/decrypt.go:Decrypt", "msg/session/memstore/memstore.go:GetMessageKey,DelMessageKey"]}
{"id": "C08", "title": "Reflected keys are detected", "statement": "Key agreement is refused exactly when two of the five public keys taking part coincide.", "quantifier": "all five-tuples of public keys", "why_tests_cant": "Ten pairs must be compared; a missing comparison is invisible unless a test hits exactly that pair.", "anchors": ["msg/keys.go:checkKeys", "msg/encrypt.go:rootKeyAgreementSender", "msg/decrypt.go:rootKeyAgreementRecipient"]}
{"id": "C09", "title": "Message keys are extended far enough but boundedly", "statement": "For every message number announced in an accepted header, the number of keys derived on receipt is at least the message number plus one, and a header announcing an absurdly large number is refused before any key is derived.", "quantifier": "all message numbers and all current key counts", "why_tests_cant": "Boundary cases at every multiple of the batch size and near the limit.", "anchors": ["msg/decrypt.go:Decrypt", "msg/encrypt.go:Encrypt"]}
{"id": "C10", "title": "Only authenticated plaintext is released", "statement": "Decryption hands content to the caller only if the message authentication code over the message verified.", "quantifier": "all incoming byte streams", "why_tests_cant": "Adversarial inputs cannot be enumerated.", "anchors": ["msg/decrypt.go:Decrypt"]}
{"id": "C11", "title": "A rejected message leaves the key store unchanged", "statement": "If decryption of an incoming message reports an error, the stored session state, session keys and message keys are what they were before the call.", "quantifier": "all incoming byte streams and all store contents", "why_tests_cant": "An attacker chooses the failing input; tests only see a few.", "anchors": ["msg/decrypt.go:Decrypt", "msg/keys.go"]}
{"id": "C12", "title": "A crash during encryption never leads to key reuse", "statement": "However encryption is interrupted, two different messages that left the program are never encrypted under the same message key.", "quantifier": "all crash points between store operations, all following encryptions", "why_tests_cant": "Crash points between individual store operations are not reachable from unit tests.", "anchors": ["msg/encrypt.go:Encrypt", "msg/session/session.go:Store"]}
{"id": "C13", "title": "A crash during encryption never blocks the conversation", "statement": "However encryption or decryption is interrupted, a later encryption in the same conversation still succeeds.", "quantifier": "all crash points between store operations", "why_tests_cant": "Crash points between individual store operations are not reachable from unit tests.", "anchors": ["msg/encrypt.go:Encrypt", "msg/decrypt.go:Decrypt"]}
{"id": "C14", "title": "Conversations follow session changes in step", "statement": "As long as messages are delivered in order, after any number of exchanged messages and session changes every message can be decrypted by its receiver with the key it was encrypted with.", "quantifier": "all interleavings of sending and receiving by two parties, all random choices when a session change is proposed", "why_tests_cant": "The number of schedules is unbounded and session changes are triggered with probability 1/1000.", "anchors": ["msg/encrypt.go:Encrypt", "msg/decrypt.go:Decrypt", "msg/session.go"]}
{"id": "C15", "title": "Extended sessions are readable from the key database", "statement": "After a session has been stored and later extended, every key of the extension can be read back under its number.", "quantifier": "all sequences of storing and extending sessions, all sessions in the database", "why_tests_cant": "The defect shows only for particular orders of inserts across sessions.", "anchors": ["keydb/session.go:AddSession,GetMessageKey"]}
{"id": "C16", "title": "Base64 and hexadecimal encodings are lossless", "statement": "Decoding an encoding gives back the original bytes, for every byte string; the base64 encoding of n bytes has exactly 4*ceil(n/3) characters and the decoder accepts an encoding with line breaks inserted anywhere.", "quantifier": "all byte strings, all placements of line breaks", "why_tests_cant": "Unbounded data and alignments.", "anchors": ["encode/base64/base64.go:Encode,Decode", "mix/client/io.go:WriteMail,ReadMail"]}
{"id": "C17", "title": "Fixed-width integer encodings are lossless", "statement": "Encoding an unsigned integer and decoding it returns the same integer, for the 8-, 16- and 64-bit encodings; decoding then encoding returns the same bytes; wrong lengths are never silently accepted.", "quantifier": "all unsigned integers of the given width, all byte strings", "why_tests_cant": "2^64 values.", "anchors": ["encode/convert.go:ToByte8,ToUint64,ToByte2,ToUint16,ToByte1"]}
{"id": "C18", "title": "Decimal digit counting is exact", "statement": "The digit count of every unsigned 64-bit number is the length of its decimal representation.", "quantifier": "all unsigned 64-bit integers", "why_tests_cant": "2^64 values; boundary errors at each power of ten.", "anchors": ["util/digits/digits.go:Count"]}
{"id": "C19", "title": "Padding has the requested length", "statement": "Whenever padding generation succeeds it returns exactly the requested number of bytes.", "quantifier": "all lengths and all random sources", "why_tests_cant": "Unbounded lengths with two code paths and a block-size rounding.", "anchors": ["msg/padding/padding.go:Generate"]}
{"id": "C20", "title": "Message identifiers name their sender", "statement": "Parsing a generated message identifier returns the sender it was generated for, for every acceptable sender identity.", "quantifier": "all mapped identities, all random parts and dates", "why_tests_cant": "The identity may itself contain the separator character.", "anchors": ["msg/msgid/msgid.go:Generate,Parse"]}
{"id": "C21", "title": "Long messages survive being cut into chunks", "statement": "Cutting a message into chunks of a given size and joining the chunks gives back the message; every chunk but the last has exactly the given size, none is empty, and the pieces are numbered 1..n with the true total.", "quantifier": "all messages, all positive chunk sizes", "why_tests_cant": "Unbounded message lengths relative to the chunk size.", "anchors": ["msg/mime/mime.go:EncodeChunks,DecodeChunk"]}
{"id": "C22", "title": "Composed messages can be parsed again", "statement": "For every message text, composing it as a MIME message and parsing the result succeeds and returns the same subject and body.", "quantifier": "all message texts", "why_tests_cant": "Edge cases such as an empty first line are easily missed.", "anchors": ["msg/mime/mime.go:New,Parse,SplitMessage"]}
{"id": "C23", "title": "Mail transport preserves the envelope", "statement": "Writing a binary message as mail and reading it back gives the same bytes as long as it is within the size limit, and no line of the body is longer than the limit.", "quantifier": "all binary messages", "why_tests_cant": "Unbounded data; line breaking interacts with encoding.", "anchors": ["mix/client/io.go:WriteMail,ReadMail,splitMaxLine"]}
{"id": "C24", "title": "Identity mapping is canonical", "statement": "Mapping an identity that is already mapped returns it unchanged; the mapped form has a local part made only of lower-case letters, digits 2-9, '-' and '.', without the look-alikes 0, 1 and j, without leading, trailing or doubled separators; two spellings that differ only in case or look-alikes map to the same identity.", "quantifier": "all strings", "why_tests_cant": "All strings, including unicode look-alikes.", "anchors": ["uid/identity/identity.go:Map,MapLocalpart,MapDomain,IsMapped,Split"]}
{"id": "C25", "title": "Settings are last-write-wins", "statement": "After any sequence of writes to the key-value settings, reading a key returns the value last written under that key and nothing else.", "quantifier": "all sequences of writes, all keys", "why_tests_cant": "Unbounded histories with an update-or-insert implementation.", "anchors": ["msgdb/keyvalue.go:AddValue,GetValue", "keydb/keyvalue.go:AddValue,GetValue"]}
{"id": "C26", "title": "No outgoing message is lost or duplicated by the out-queue", "statement": "Through any sequence of queue operations and crashes, every message the user submitted is in exactly one of the states waiting, queued or sent; at most one queue entry exists per message; nothing is dropped unless the user deletes it.", "quantifier": "all histories of message database operations, all crash points between transactions", "why_tests_cant": "Unbounded histories and crash points.", "anchors": ["msgdb/outqueue.go", "msgdb/messages.go"]}
{"id": "C27", "title": "Queues are first-in first-out", "statement": "The out-queue and the in-queue always return the oldest eligible entry, and an entry's stored content and stage are those last written for it.", "quantifier": "all histories of queue operations", "why_tests_cant": "Unbounded histories; row numbers are reused after deletion.", "anchors": ["msgdb/outqueue.go:GetOutQueue", "msgdb/inqueue.go:GetInQueue"]}
{"id": "C28", "title": "Incoming messages move from the in-queue to the message list exactly once", "statement": "Finishing an in-queue entry either adds exactly one message with the decrypted text to the owner's list or (when dropped) none, and removes exactly that entry, atomically.", "quantifier": "all database states and crash points", "why_tests_cant": "Atomicity at crash points.", "anchors": ["msgdb/inqueue.go:RemoveInQueue,DelInQueue"]}
{"id": "C29", "title": "Users of one database are isolated", "statement": "Operations on behalf of one local user never change nor reveal contacts, messages, accounts or queue entries of another local user; deleting a user removes everything that belongs to that user and nothing else.", "quantifier": "all histories of database operations with any number of users", "why_tests_cant": "Unbounded histories and cross-table effects of deletion.", "anchors": ["msgdb/nyms.go", "msgdb/contacts.go", "msgdb/messages.go", "msgdb/accounts.go"]}
{"id": "C30", "title": "Contact lists reflect the last decision", "statement": "A contact is listed as a contact exactly if the last decision about it was to add or unblock it, and as blocked exactly if it was to block it; removed contacts are in neither list.", "quantifier": "all histories of contact operations", "why_tests_cant": "Unbounded histories.", "anchors": ["msgdb/contacts.go:AddContact,RemoveContact,GetContacts,GetContact", "ctrlengine/contact.go"]}
{"id": "C31", "title": "Contact commands keep what the user entered", "statement": "Adding a contact stores the full name and the spelling the user gave.", "quantifier": "all contacts and names", "why_tests_cant": "Variable shadowing; a test that looks only at the mapped identity does not notice.", "anchors": ["ctrlengine/contact.go:contactAdd,add,contactBlock"]}
{"id": "C32", "title": "The message-ID cache remembers what it must", "statement": "After any sequence of additions and prunings, the cache for an account contains exactly the identifiers added at or after the last pruning point, and pruning one account does not touch another.", "quantifier": "all histories of cache operations", "why_tests_cant": "Unbounded histories.", "anchors": ["msgdb/cache.go:AddMessageIDCache,GetMessageIDCache,RemoveMessageIDCache"]}
{"id": "C33", "title": "Fetching never loses a message", "statement": "Every message that the server lists is eventually stored locally if fetching is repeated, wherever previous fetches were interrupted.", "quantifier": "all server contents, all interruption points", "why_tests_cant": "Interruption points between two database writes.", "anchors": ["ctrlengine/msg.go:muteprotoFetch", "msgdb/cache.go", "msgdb/inqueue.go", "protoengine/fetch.go"]}
{"id": "C34", "title": "One bad incoming message does not block the others", "statement": "Processing the in-queue always makes progress: a message that cannot be decoded is set aside and the following messages are processed.", "quantifier": "all queue contents", "why_tests_cant": "Adversarial queue contents.", "anchors": ["ctrlengine/msg.go:procInQueue"]}
{"id": "C35", "title": "An accepted outgoing message is delivered at least once", "statement": "Every message the user submitted is handed to the mix at least once if sending is repeated, whatever interruptions or temporary failures happen; without interruptions it is handed over successfully at most once.", "quantifier": "all schedules of failures and interruptions", "why_tests_cant": "Unbounded failure schedules.", "anchors": ["ctrlengine/msg.go:procOutQueue,msgSend", "msgdb/outqueue.go"]}
{"id": "C36", "title": "Messages from blocked contacts are never shown", "statement": "A message whose sender is blocked when it is processed never becomes visible; a message from an unknown sender creates a gray-listed contact and becomes visible.", "quantifier": "all queue contents and contact lists", "why_tests_cant": "All combinations of contact states over histories.", "anchors": ["ctrlengine/msg.go:procInQueue", "msgdb/inqueue.go:RemoveInQueue"]}
{"id": "C37", "title": "Periodic upkeep runs when due", "statement": "A periodic upkeep task is executed exactly if the period is zero, it was never executed, or at least the period has passed since the last recorded execution.", "quantifier": "all periods, last execution times and current times", "why_tests_cant": "All times; boundary at exact equality.", "anchors": ["ctrlengine/upkeep.go:checkExecution"]}
{"id": "C38", "title": "Hash-chain entries are a faithful codec", "statement": "Splitting a hash-chain entry succeeds exactly for base64 of 153 bytes whose type byte is 1 and returns fields whose concatenation is the entry.", "quantifier": "all strings", "why_tests_cant": "All strings.", "anchors": ["keyserver/hashchain/hashchain.go:SplitEntry"]}
{"id": "C39", "title": "A validated hash chain is tamper evident", "statement": "If two chains of equal length are both accepted by validation and end with the same entry hash, they are equal entry by entry, or a collision of the hash function is exhibited; changing, inserting or reordering entries of a validated chain is detected.", "quantifier": "all pairs of chains of any length", "why_tests_cant": "Chains of unbounded length.", "anchors": ["cryptengine/hashchain.go:validateHashChain", "keyserver/hashchain/hashchain.go"]}
{"id": "C40", "title": "Hash-chain synchronisation is complete", "statement": "If synchronisation reports success, the local copy contains every entry up to the position the server reported, unchanged for the positions already known.", "quantifier": "all server replies and local states", "why_tests_cant": "Adversarial server replies.", "anchors": ["cryptengine/hashchain.go:syncHashChain", "keydb/keydb.go:AddHashChainEntry,GetLastHashChainPos"]}
{"id": "C41", "title": "A looked-up identity is the one that was asked for", "statement": "If a hash-chain lookup for an identity reports success and stores a UID message, that UID message is for that identity.", "quantifier": "all server replies", "why_tests_cant": "Adversarial server replies.", "anchors": ["cryptengine/hashchain.go:searchHashChain,lookupHashChain"]}
{"id": "C42", "title": "The newest public key message is used", "statement": "Looking up the public UID message of an identity up to a chain position returns the one with the highest position not beyond the bound, whatever order the messages were stored in; for own identities the one with the highest counter is returned.", "quantifier": "all histories of additions and all positions", "why_tests_cant": "Unbounded histories.", "anchors": ["keydb/keydb.go:AddPublicUID,GetPublicUID,AddPrivateUID,GetPrivateUID"]}
{"id": "C43", "title": "Mix client headers are a faithful codec", "statement": "Encoding a client mix header and decoding it returns the same message type, delays, revoke identifier, token and address, and the length of the header.", "quantifier": "all headers", "why_tests_cant": "All field contents.", "anchors": ["mix/mixcrypt/clientmix.go:ClientMixHeader.Marshal,Unmarshal"]}
{"id": "C44", "title": "Malformed mix input is rejected, not fatal", "statement": "Decoding a mix header from any byte string either succeeds or reports an error; it never aborts the program.", "quantifier": "all byte strings", "why_tests_cant": "Adversarial inputs.", "anchors": ["mix/mixcrypt/clientmix.go:Unmarshal", "mix/mixcrypt/clientmix.go:ReceiveMessage"]}
{"id": "C45", "title": "A nym address leads back to its owner", "statement": "The owner of the secret recovers from a header made for a nym address exactly the nym it was created for and the key the sender used; a header whose protected fields were changed is refused.", "quantifier": "all secrets, nyms, mailbox addresses, nonces", "why_tests_cant": "All secrets and nyms.", "anchors": ["mix/nymaddr/addr.go:NewAddress,GetHeader,GetPrivate", "mix/nymaddr/crypt.go"]}
{"id": "C46", "title": "Nym addresses do not outlive their mix", "statement": "A nym address created with an expiry time uses only a mix whose key expires strictly later, and expired addresses are refused by the sender.", "quantifier": "all candidate lists, all expiry times", "why_tests_cant": "All candidate lists.", "anchors": ["mix/nymaddr/addr.go:NewAddress,ParseAddress", "mix/mixaddr/addrlist.go:Expire,Rand"]}
{"id": "C47", "title": "A signed mix address list is unambiguous", "statement": "If a statement signature verifies for a list of mix addresses, no different list of addresses verifies with the same signature (short of breaking the hash or the signature).", "quantifier": "all pairs of address lists", "why_tests_cant": "All pairs of lists; concatenation without separators.", "anchors": ["mix/mixaddr/addrlist.go:image,AddressList.hash,Verify"]}
{"id": "C48", "title": "Relayed messages arrive at the mailbox they were addressed to", "statement": "The bytes a mix sends to the mailbox server are split by the receiver into exactly the nym header, body and address parameters that the mix processed, and the mailbox is the one the nym address was created for.", "quantifier": "all messages and headers", "why_tests_cant": "All lengths.", "anchors": ["mix/mixcrypt/mixclient.go:sendRelay,ReceiveFromMix", "util/nymaddr.go:MailboxAddress"]}
{"id": "C49", "title": "A message is delivered at most once after success", "statement": "After delivery of an envelope succeeded, delivering it again sends nothing; a permanent failure is never retried; a temporary failure can be retried; storing and reloading the envelope does not change this.", "quantifier": "all sequences of delivery attempts, outcomes and reloads", "why_tests_cant": "All outcome sequences.", "anchors": ["mix/client/send.go:Deliver,Marshal,Unmarshal", "protoengine/deliver.go"]}
{"id": "C50", "title": "The configuration signature covers exactly the configuration", "statement": "Two configurations with the same signed image have the same entries, and the image does not depend on the order in which entries are enumerated.", "quantifier": "all configuration maps and sign dates", "why_tests_cant": "All maps.", "anchors": ["configclient/sortedmap/map.go:Sort,Image,Sign,Verify"]}
{"id": "C51", "title": "Configuration never goes back in time", "statement": "An update is accepted only if its sign date is not older than the last accepted one and within the allowed clock difference; hence the sequence of accepted sign dates is non-decreasing.", "quantifier": "all sequences of server replies", "why_tests_cant": "All sequences.", "anchors": ["configclient/sortedmap/signedmap.go:Certify", "configclient/client.go:Update"]}
{"id": "C52", "title": "A failed configuration update can be retried", "statement": "After a failed update the client is in a state from which a later update with working servers succeeds, and the configuration in use is unchanged.", "quantifier": "all failure schedules", "why_tests_cant": "Second-call state bugs need particular failure sequences.", "anchors": ["configclient/client.go:Update"]}
{"id": "C53", "title": "Server choice respects priorities", "statement": "The order in which servers are tried is a permutation of the configured servers in which every server precedes all servers of larger priority value.", "quantifier": "all server lists and random choices", "why_tests_cant": "All lists and random choices.", "anchors": ["configclient/roundrobin/roundrobin.go:Order,ParseServers"]}
{"id": "C54", "title": "Wallet authentication tokens are a faithful codec", "statement": "Checking a freshly created authentication token succeeds and returns the public key, hour and counter it was created with; changing the token is detected.", "quantifier": "all keys, counters and times", "why_tests_cant": "All counters.", "anchors": ["serviceguard/common/walletauth/walletauth.go:CreateToken,CheckToken"]}
{"id": "C55", "title": "Replay errors are recognised without crashing", "statement": "Classifying any error returned by the wallet server yields either the replay error with the server's counter or the original error; it never aborts the program.", "quantifier": "all error texts", "why_tests_cant": "Adversarial error texts.", "anchors": ["serviceguard/common/walletauth/walletauth.go:IsReplay"]}
{"id": "C56", "title": "A locked token has one holder", "statement": "As long as a holder has not released its lock (and the lock has not expired), no other caller can lock the same token or obtain it for use.", "quantifier": "all interleavings of lock, unlock, get and cleaning operations", "why_tests_cant": "Interleavings.", "anchors": ["serviceguard/client/walletstore/store.go:LockToken,UnlockToken,GetAndLockToken,GetToken", "serviceguard/client/reissue.go:ReissueToken"]}
{"id": "C57", "title": "Cleaning releases only stale locks", "statement": "Opening the wallet store releases exactly the locks older than the maximum lock age; fresh locks stay.", "quantifier": "all lock times", "why_tests_cant": "Boundary and sign of the comparison.", "anchors": ["serviceguard/client/walletstore/store.go:CleanLocks"]}
{"id": "C58", "title": "Wallet state survives a restart", "statement": "The authentication token, its try counter and the verification keys last stored are available after reopening the wallet store.", "quantifier": "all values stored", "why_tests_cant": "Needs reopening after each possible history.", "anchors": ["serviceguard/client/walletstore/store.go:readCache,writeCache", "serviceguard/client/walletstore/types.go"]}
{"id": "C59", "title": "Wallet balances count usable tokens", "statement": "The balance reported for a usage equals the number of tokens that can be obtained for that usage.", "quantifier": "all wallet contents and histories", "why_tests_cant": "Unbounded histories.", "anchors": ["serviceguard/client/walletstore/store.go:GetBalance,GetBalanceOwn,GetAndLockToken"]}
{"id": "C60", "title": "Tokens are not lost during reissue", "statement": "Wherever a token reissue is interrupted, the wallet afterwards holds either the old token or the new one.", "quantifier": "all crash points", "why_tests_cant": "Crash points between store operations.", "anchors": ["serviceguard/client/reissue.go:ReissueToken"]}
{"id": "C61", "title": "Only verified signing keys enter the key pool", "statement": "Every key in the pool carries a valid signature of a trusted signer, has the pool's usage, and was not expired when it was loaded; lookups never return an expired key.", "quantifier": "all sequences of loads and lookups", "why_tests_cant": "Unbounded histories with adversarial inputs.", "anchors": ["serviceguard/common/keypool/generator.go:loadKey,Lookup,LoadKey"]}
{"id": "C62", "title": "The current signing key is usable", "statement": "The key returned as the current signing key is not expired.", "quantifier": "all times and key ages", "why_tests_cant": "Depends on the clock.", "anchors": ["serviceguard/common/keypool/generator.go:Current"]}
{"id": "C63", "title": "A key identifier determines the key", "statement": "Two public keys with different content never have the same key identifier short of a hash collision.", "quantifier": "all public keys", "why_tests_cant": "All pairs.", "anchors": ["serviceguard/common/signkeys/keys.go:CalcKeyID"]}
{"id": "C64", "title": "Token refill has hysteresis and meets its target", "statement": "Automatic refilling fetches tokens exactly until the target is met and reports whether it is met.", "quantifier": "all balances and targets", "why_tests_cant": "All balances.", "anchors": ["serviceguard/client/runner.go:meetTarget"]}
{"id": "C65", "title": "A key file can be opened with its passphrase", "statement": "Reading a key file that was written for a passphrase, iteration count and key returns that key; creation never overwrites an existing file.", "quantifier": "all keys, passphrases, iteration counts", "why_tests_cant": "All values.", "anchors": ["encdb/keyfile.go:generateKeyfile,writeKeyfile,ReadKeyfile"]}
{"id": "C66", "title": "A damaged key file is noticed", "statement": "Reading a key file of the wrong length reports an error.", "quantifier": "all truncated files", "why_tests_cant": "All truncation points.", "anchors": ["encdb/keyfile.go:ReadKeyfile"]}
{"id": "C67", "title": "Changing the passphrase is crash safe", "statement": "Wherever changing a key file's passphrase is interrupted, the key file exists and opens with the old or with the new passphrase.", "quantifier": "all crash points", "why_tests_cant": "Crash points between file operations.", "anchors": ["encdb/keyfile.go:replaceKeyfile", "encdb/encdb.go:Rekey"]}
{"id": "C68", "title": "The text buffer shows what was loaded", "statement": "Loading a text and writing the buffer gives the text back; for every line and cell the cell lookup returns the character covering that cell, and the line length in cells is the sum of character widths.", "quantifier": "all texts", "why_tests_cant": "All unicode texts with combining and wide characters.", "anchors": ["tui/textbuffer/textbuffer.go"]}
{"id": "C69", "title": "Drawing the editor terminates", "statement": "Drawing the editor contents always terminates and visits every visible character.", "quantifier": "all texts and window sizes", "why_tests_cant": "Non-termination for particular widths only.", "anchors": ["tui/editor/view.go:Draw", "tui/editor/model.go:GetCell", "tui/textbuffer/textbuffer.go:GetCell"]}
{"id": "C70", "title": "The cursor stays inside the text", "statement": "After any sequence of cursor movements and content changes the cursor is inside the text area (or at the origin if it is empty).", "quantifier": "all sequences of movements and content changes", "why_tests_cant": "Unbounded sequences.", "anchors": ["tui/editor/model.go:limitCursor,MoveCursor,SetCursor", "tui/editor/editor.go:SetContent"]}
{"id": "C71", "title": "Configured server is used for account payments", "statement": "Paying for an existing account contacts the server the account lives on.", "quantifier": "all servers", "why_tests_cant": "Server choice is hidden behind a network call.", "anchors": ["mix/client/accountrpc.go:PayAccount,payAccount"]}
{"id": "C72", "title": "A rejected configuration changes nothing", "statement": "If applying a configuration reports an error, the settings in use are unchanged.", "quantifier": "all configurations", "why_tests_cant": "All subsets of missing entries.", "anchors": ["def/def.go:InitMute"]}
{"id": "C73", "title": "The reported sender is the owner of the keys", "statement": "If decryption reports a sender identity, the message was produced with key material that is bound to that identity; two senders with different keys cannot both be reported under the same identity.", "quantifier": "all incoming messages and stores", "why_tests_cant": "Tests only send messages with honest UID messages.", "anchors": ["msg/decrypt.go:Decrypt", "msg/header.go:verify", "uid/uid.go:NewJSON"]}
{"id": "C74", "title": "No incoming message makes decryption panic", "statement": "Decryption of arbitrary incoming bytes returns a result or an error and never panics, for every reachable store.", "quantifier": "all byte strings and reachable stores", "why_tests_cant": "Needs well-encrypted messages with malformed inner fields, or stores left behind by a crash.", "anchors": ["msg/decrypt.go:Decrypt", "uid/keyentry.go:PublicKey32"]}
{"id": "C75", "title": "Simultaneous session proposals are resolved", "statement": "If both parties of a conversation propose a new session at the same time, the conversation can still agree on a new session later.", "quantifier": "all interleavings in which both sides propose before receiving the other's proposal", "why_tests_cant": "Needs a particular interleaving of two parties and the absence of any later agreement.", "anchors": ["msg/encrypt.go:Encrypt", "msg/decrypt.go:Decrypt"]}
{"id": "C76", "title": "Session states are read back as last written", "statement": "The session state read from the key database for a session state key is the last one that was successfully written for it.", "quantifier": "all histories of database operations, all keys", "why_tests_cant": "Interleavings of writes for different keys and failing writes.", "anchors": ["keydb/session.go:SetSessionState,GetSessionState"]}
{"id": "C77", "title": "Session keys are read back as last stored", "statement": "A session key read from the key database is the one stored last for its hash, without private part once that was deleted.", "quantifier": "all histories of database operations, all key hashes", "why_tests_cant": "Needs repeated storing after deletion.", "anchors": ["keydb/session.go:AddSessionKey,GetSessionKey,DelPrivSessionKey"]}
{"id": "C78", "title": "Malformed key server answers never crash the client", "statement": "No answer of a key server makes synchronising, searching or looking up in a hash chain panic.", "quantifier": "all server answers", "why_tests_cant": "All shapes of malformed answers.", "anchors": ["cryptengine/hashchain.go:syncHashChain,searchHashChain,lookupHashChain", "uid/uid.go:Decrypt,Localpart,Domain"]}
{"id": "C79", "title": "Mix statements list exactly the usable keys", "statement": "A mix statement published by the key list lists exactly the keys the mix can still use.", "quantifier": "all histories of key creation, expiry runs and publications", "why_tests_cant": "Depends on the interleaving of timers and publications.", "anchors": ["mix/mixcrypt/keylist.go:AddKey,Expire", "mix/mixaddr/addrlist.go:Statement"]}
{"id": "C80", "title": "Account calls recover from stale counters", "statement": "A call to the account server makes at most four requests, and with a server that rejects used counters and reports the last one it succeeds unless another client interferes before every retry.", "quantifier": "all server counters, clocks and interference by others", "why_tests_cant": "Needs servers with arbitrary counters and concurrent users.", "anchors": ["mix/client/accountrpc.go:payAccount,listMessages,newMailBox", "mix/client/receive.go:FetchMessage"]}
{"id": "C81", "title": "Malformed message lists are reported", "statement": "The message list returned to the caller contains every message the server listed, or an error is reported.", "quantifier": "all server answers", "why_tests_cant": "Needs every kind of malformed answer.", "anchors": ["mix/client/accountrpc.go:listMessages"]}
{"id": "C82", "title": "Mix keys are used only from verified statements", "statement": "Nym addresses are only built on mix addresses taken from a statement whose signature was verified.", "quantifier": "all server answers", "why_tests_cant": "Tests use honest mix servers.", "anchors": ["mix/client/mixrpc.go:GetMixKeys", "util/nymaddr.go", "mix/mixaddr/addrlist.go:AddStatement"]}
{"id": "C83", "title": "The wallet client recovers after a failed call", "statement": "After a failed call, later calls of the wallet client succeed again once the server answers.", "quantifier": "all sequences of calls, failures and counters", "why_tests_cant": "Needs a failure in transit followed by further calls.", "anchors": ["serviceguard/client/walletrpc/client.go"]}
{"id": "C84", "title": "A refused message does not hold up the others", "statement": "A message that the mix refuses permanently does not keep the user's other messages from being sent.", "quantifier": "all out-queues and all failure reports", "why_tests_cant": "The queue has to contain a message that is refused for good; the tests of the engine never run the sending loop against a failing mix.", "anchors": ["ctrlengine/msg.go:procOutQueue", "serviceguard/client/errors.go", "mix/client/send.go"]}
{"id": "C85", "title": "A token request yields a token or an error", "statement": "Whenever asking the wallet for a token reports success, a token is returned.", "quantifier": "all wallet contents", "why_tests_cant": "Needs a stored token that cannot be read back.", "anchors": ["serviceguard/client/clientlib.go:GetToken"]}
{"id": "C86", "title": "Expiring tokens are renewed", "statement": "A renewable token of the wallet that is about to expire is reissued by the background runner while the servers answer.", "quantifier": "all wallets with an expiring token", "why_tests_cant": "The runner is never run in the tests.", "anchors": ["serviceguard/client/runner.go:runner", "serviceguard/client/reissue.go:ReissueToken"]}
{"id": "C87", "title": "Stored tokens are read back unchanged", "statement": "A token stored in the wallet is read back with the same contents until it is stored again or deleted.", "quantifier": "all tokens and histories of the wallet", "why_tests_cant": "The tests store a handful of tokens; the fields that decide what is stored interact.", "anchors": ["serviceguard/client/walletstore/store.go:SetToken,GetToken", "serviceguard/client/walletstore/types.go"]}
{"id": "C88", "title": "Installed keys are the configured ones", "statement": "If a configuration is applied, the trust root and the account daemon owner key in use are 32 byte keys given in full by the configuration; shorter or longer values are rejected.", "quantifier": "all configurations", "why_tests_cant": "Malformed keys are accepted silently, no test feeds one.", "anchors": ["def/def.go:InitMute,decodeED25519PubKey"]}
{"id": "C89", "title": "Clean-up waits for delayed messages", "statement": "The clean-up time set from a configuration is at least twice the configured maximum mix delay.", "quantifier": "all configurations", "why_tests_cant": "The arithmetic wraps only for very large configured values.", "anchors": ["def/def.go:InitMute"]}
{"id": "C90", "title": "A key signature fixes expiry and usage", "statement": "A signature made for one signing key is not a valid signature for a key with a different expiry date, usage or point.", "quantifier": "all keys and signers", "why_tests_cant": "Needs two keys constructed to share one hashed text.", "anchors": ["serviceguard/common/signkeys/keys.go:CalcKeyID,Verify"]}
{"id": "C91", "title": "Stored signing keys are read back", "statement": "A signing key that is written out is read back unchanged, and what was stored in the key table under an identifier is what is fetched for it, whatever is written later.", "quantifier": "all keys, all sequences of writes", "why_tests_cant": "Round trip over all field values and histories.", "anchors": ["serviceguard/common/signkeys/keys.go:Marshal,Unmarshal", "serviceguard/common/keypool/keydb/dbstorage.go:writeFunc,Fetch"]}
{"id": "C92", "title": "Failing to store a signing key is reported", "statement": "If the key table refuses a key, the caller gets an error.", "quantifier": "all failures of the database", "why_tests_cant": "Tests use a working database.", "anchors": ["serviceguard/common/keypool/keydb/dbstorage.go:writeFunc"]}
{"id": "C93", "title": "The key map is not written during another access", "statement": "No two threads use the key pool's map at the same time if one of them writes to it.", "quantifier": "all interleavings of any number of threads", "why_tests_cant": "The bad interleaving is rare.", "anchors": ["serviceguard/common/keypool/generator.go:Lookup,loadKey"]}
{"id": "C94", "title": "Tokens are a faithful codec", "statement": "A marshalled token is unmarshalled unchanged, its signature is read back as added, and a new token names the key and owner it was made for.", "quantifier": "all tokens", "why_tests_cant": "Round trip over all field values.", "anchors": ["serviceguard/common/token/types.go:New,Marshal,Unmarshal,AddSignature,GetSignature,Properties"]}
{"id": "C95", "title": "A token hash determines the token", "statement": "Two accepted tokens with the same hash have the same key identifier, flag, nonce and owner, short of a hash collision.", "quantifier": "all tokens that can be unmarshalled", "why_tests_cant": "Needs two tokens constructed to share one hashed text.", "anchors": ["serviceguard/common/token/types.go:Hash,Unmarshal"]}
{"id": "C96", "title": "Packet signatures cover the request", "statement": "The signed image of a reissue packet determines call type, token, blinded token and parameters short of a hash collision; images of spend and reissue packets differ; the owner's signature is accepted and an unsigned packet is accepted only without owner.", "quantifier": "all packets", "why_tests_cant": "Universal over packets.", "anchors": ["serviceguard/common/types/types.go:Image,Sign,Verify"]}
{"id": "C97", "title": "Changing the passphrase survives a power loss", "statement": "If the power fails after a successful change of the passphrase, the database still opens with the old or the new passphrase.", "quantifier": "all states of the files that a power loss can leave", "why_tests_cant": "Needs control over which written data reaches the disk.", "anchors": ["encdb/keyfile.go:replaceKeyfile,writeKeyfile", "encdb/encdb.go:Rekey"]}
{"id": "C98", "title": "Creating a database can be repeated after an interruption", "statement": "If creating a database is interrupted, either opening or creating it works afterwards; created databases open and existing ones are not touched.", "quantifier": "all points of interruption", "why_tests_cant": "Universal over crash points.", "anchors": ["encdb/encdb.go:Create,Open"]}
{"id": "C99", "title": "Attachments arrive as they were attached", "statement": "Parsing a composed message returns the attachments in order, each with its file name, contents, inline mark and content type (the given one, or the one for the file name extension, or application/octet-stream).", "quantifier": "all file names, contents, content types and numbers of attachments", "why_tests_cant": "File names are user input; tests use one plain ASCII name.", "anchors": ["msg/mime/mime.go:multipartMIME,Parse"]}
{"id": "C100", "title": "Parsing a received message never crashes", "statement": "Parse and DecodeChunk return a result or an error for every byte string, they never panic.", "quantifier": "all byte strings", "why_tests_cant": "The messages come from the network; tests only parse well-formed ones.", "anchors": ["msg/mime/mime.go:Parse,DecodeChunk"]}
{"id": "C101", "title": "A message that was cut off is not accepted as complete", "statement": "If only a proper prefix of a composed message arrives, Parse does not return it as a message; in particular no attachment disappears or is shortened without an error.", "quantifier": "all messages, all cuts", "why_tests_cant": "The cuts that go wrong lie inside a part header; tests do not cut messages.", "anchors": ["msg/mime/mime.go:Parse"]}
{"id": "C102", "title": "The private session key is deleted once the session is in use", "statement": "When a message of a session that the receiver already knows is decrypted, the private part of the receiver's temporary key of that session is no longer in the key database afterwards.", "quantifier": "all stores, all messages that decrypt, all crypto implementations", "why_tests_cant": "Forward secrecy by deletion is not observable from results; a test sees the same plaintext if the key is never deleted.", "anchors": ["msg/decrypt.go:Decrypt", "msg/session/session.go:Store.DelPrivSessionKey"]}
{"id": "C103", "title": "No sent message is forgotten by the counters", "statement": "The number of messages sent in a conversation (SenderSessionCount + SenderMessageCount, modulo 2^64) grows by one with every Encrypt and is never changed by Decrypt, whatever arrives and whatever error results, once the conversation is out of its KeyInit session; it stays out of it.", "quantifier": "all stores, all incoming byte strings, all results including errors and panics, all conversations in the store", "why_tests_cant": "Needs session switches in every combination with failed decryptions; tests only exercise a few orders.", "anchors": ["msg/encrypt.go:Encrypt", "msg/decrypt.go:Decrypt"]}
{"id": "C104", "title": "A message only touches the session state of its own conversation", "statement": "Encrypt and Decrypt change at most the session state of the conversation between the two identities of the message; a message whose header cannot be opened changes nothing.", "quantifier": "all stores with any number of conversations, all messages, all results", "why_tests_cant": "Tests use one conversation per store.", "anchors": ["msg/encrypt.go:Encrypt", "msg/decrypt.go:Decrypt", "msg/session/session.go:CalcStateKey"]}
{"id": "C105", "title": "Simultaneous first messages end in one session", "statement": "If both parties write their first message before they receive the other's, then after both messages were received both use the session started by the party with the smaller name.", "quantifier": "all parties, names, keys, messages and randomness without hash collisions", "why_tests_cant": "Tie breaking by name depends on both sides' states at once; unit tests run one side.", "anchors": ["msg/encrypt.go:Encrypt", "msg/decrypt.go:Decrypt"]}
{"id": "C106", "title": "New identities are accepted", "statement": "A UID message made by Create for a mapped identity passes Check and VerifySelfSig, parses back from its JSON form to itself, and its public signature and Diffie-Hellman keys belong to the private keys kept; Create succeeds for every mapped identity with a well-formed hash chain entry.", "quantifier": "all identities, addresses, hash chain entries, keys; all crypto satisfying the laws", "why_tests_cant": "The test creates one identity and only checks that no error is returned.", "anchors": ["uid/uid.go:Create", "uid/uid.go:Check", "uid/uid.go:VerifySelfSig"]}
{"id": "C107", "title": "Histories of key changes verify", "statement": "Any number of Update calls in a row succeed; every message verifies itself and is accepted as the successor of the one before by VerifyUserSig, the message counter counts the changes, and a message is accepted as a successor exactly if counter, identity and signature of the old key fit.", "quantifier": "all histories of any length", "why_tests_cant": "Tests update once.", "anchors": ["uid/uid.go:Update", "uid/uid.go:VerifyUserSig"]}
{"id": "C108", "title": "Own identities survive in the key database", "statement": "After any sequence of uid commands, what the database returns for a nym is either nothing (no row) or a message that checks, with the private keys belonging to it; generate and update take effect, and commands for one nym leave the others alone.", "quantifier": "all sequences of generate, register, update, delete, add KeyInit and fetch KeyInit", "why_tests_cant": "Needs all orders of commands on several nyms.", "anchors": ["keydb/keydb.go:AddPrivateUID", "keydb/keydb.go:GetPrivateUID", "cryptengine/uid.go:generate"]}
{"id": "C109", "title": "Deleting a nym removes all its key material", "statement": "After uid delete (prompt: delete user ID ... and all it's key material) no private key or message of the nym is left in the database.", "quantifier": "all command sequences", "why_tests_cant": "Tests delete a nym that has exactly one row.", "anchors": ["cryptengine/uid.go:deleteUID", "keydb/keydb.go:DelPrivateUID"]}
{"id": "C110", "title": "A failed registration can be repeated", "statement": "If registering a UID message reports an error, registering again with a server that answers correctly succeeds.", "quantifier": "all states, all server answers", "why_tests_cant": "Needs a server that cheats or a broken connection between two calls; there is no such test.", "anchors": ["cryptengine/uid.go:register"]}
{"id": "C111", "title": "A confirmation is for the message that was sent", "statement": "VerifySrvSig accepts the reply of a key server only if the message inside is the one that was sent.", "quantifier": "all replies, messages and keys", "why_tests_cant": "Tests only verify honest replies.", "anchors": ["uid/uid.go:VerifySrvSig"]}
{"id": "C112", "title": "Honest key server replies are accepted", "statement": "The reply a key server makes for a UID message is accepted by the client, survives its JSON form, and decrypts to the message.", "quantifier": "all messages, keys, positions and initialisation vectors", "why_tests_cant": "One fixed reply in the tests.", "anchors": ["uid/uid.go:CreateReply", "uid/uid.go:Decrypt", "uid/uid.go:VerifySrvSig"]}
{"id": "C113", "title": "KeyInit messages are accepted until they expire", "statement": "A KeyInit message made for an own identity verifies at every time up to NOTAFTER and at no later time; its anchor decrypts to the mix address, nym address and key put in, whose private half is returned; making it succeeds exactly for sensible times.", "quantifier": "all identities reachable by commands, all times, keys and addresses", "why_tests_cant": "Tests use one message and the current time.", "anchors": ["uid/keyinit.go:KeyInit", "uid/keyinit.go:Verify", "uid/keyinit.go:SessionAnchor"]}
{"id": "C114", "title": "Private keys of published KeyInit messages are found", "statement": "Once a KeyInit message has been added, GetPrivateKeyEntry finds its private key by the hash of the public key, whatever commands follow.", "quantifier": "all command sequences", "why_tests_cant": "Tests look it up directly after adding it.", "anchors": ["cryptengine/keyinit.go:addKeyInit", "keydb/keydb.go:GetPrivateKeyInit", "cryptengine/keystore.go:GetPrivateKeyEntry"]}
{"id": "C115", "title": "Only signed KeyInit messages are used", "statement": "If GetPublicKeyEntry returns a key of a KeyInit message, that message passes KeyInit.Verify for the recipient's UID message.", "quantifier": "all states and server answers", "why_tests_cant": "Needs a forged answer; tests only use honest ones.", "anchors": ["cryptengine/keystore.go:GetPublicKeyEntry", "cryptengine/keyinit.go:fetchKeyInit", "uid/keyinit.go:Verify"]}
{"id": "C116", "title": "The KeyInit message fetched last is used", "statement": "After a KeyInit message has been fetched, GetPublicKeyEntry returns the key in it.", "quantifier": "all histories of fetches", "why_tests_cant": "Tests fetch once.", "anchors": ["cryptengine/keyinit.go:fetchKeyInit", "keydb/keydb.go:GetPublicKeyInit"]}
{"id": "C117", "title": "Expired KeyInit messages are not used", "statement": "GetPublicKeyEntry returns no key of a KeyInit message whose NOTAFTER is past.", "quantifier": "all times", "why_tests_cant": "Needs waiting for 90 days.", "anchors": ["cryptengine/keystore.go:GetPublicKeyEntry", "uid/keyinit.go:Verify"]}
{"id": "C118", "title": "No server answer crashes the client", "statement": "Whatever a key server answers, reading the KeyInit message later returns a key or an error.", "quantifier": "all answers", "why_tests_cant": "Needs malformed answers with a correct key hash.", "anchors": ["uid/keyinit.go:SessionAnchor", "cipher/aes256/aes256.go:CTRDecrypt"]}
{"id": "C119", "title": "Key entries made by the package verify", "statement": "KeyEntry.Verify accepts the entries made by InitDHKey and initSigKey, and exactly the entries of the cipher suite with a known function whose hash is the hash of a 32 byte key.", "quantifier": "all keys", "why_tests_cant": "Tests verify DH keys only.", "anchors": ["uid/keyentry.go:Verify", "uid/keyentry.go:initSigKey", "uid/keyentry.go:InitDHKey"]}
{"id": "C120", "title": "Signed nonces", "statement": "VerifyNonce accepts what SignNonce made, accepts exactly the signatures over the eight bytes of the nonce, and these differ for different nonces.", "quantifier": "all identities reachable by commands, all nonces", "why_tests_cant": "One nonce in the tests.", "anchors": ["uid/uid.go:SignNonce", "uid/uid.go:VerifyNonce"]}
{"id": "C121", "title": "Generating a nym takes effect or is refused", "statement": "When generating a nym succeeds, its new keys are the ones used afterwards.", "quantifier": "all command sequences", "why_tests_cant": "Tests generate every nym once.", "anchors": ["cryptengine/uid.go:generate", "keydb/keydb.go:AddPrivateUID"]}
{"id": "C122", "title": "Keys follow the protocol description", "statement": "The root key, the chain keys, the message keys, the session names and the identity fix that sender and recipient store for a new session are those of doc/messages.md: the root key is the HKDF of the three Diffie-Hellman secrets followed by the previous root key hash (64 zero bytes without one); message key i is HMAC(chain key i, MESSAGE | hash of the public key | identity fix) and the next chain key is HMAC(chain key, CHAIN), of which the first 32 bytes are kept.", "quantifier": "all keys, identities, previous hashes and numbers of message keys", "why_tests_cant": "The tests check that both sides agree, not that they compute what the description says.", "anchors": ["doc/messages.md", "msg/keys.go:deriveRootKey", "msg/keys.go:generateMessageKeys", "msg/encrypt.go:rootKeyAgreementSender", "msg/decrypt.go:rootKeyAgreementRecipient"]}
{"id": "C123", "title": "Messages are laid out as documented", "statement": "Every message that Encrypt writes is, base64 decoded, the sequence of packets of doc/messages.md: pre-header, encrypted header of fixed length behind nonce and length, IV, encrypted data, encrypted signature and padding, HMAC over everything before it including its own packet header; the encoded message has 65536 characters.", "quantifier": "all senders, recipients, contents, signing keys, stores", "why_tests_cant": "Tests encrypt few contents and decrypt them again; the layout itself is not looked at.", "anchors": ["doc/messages.md", "msg/encrypt.go:Encrypt", "msg/outer.go", "msg/inner.go"]}
{"id": "C124", "title": "Header contents and verification", "statement": "The header that Encrypt seals holds the keys, hashes and counters of the session state with which it was sent and the UID, keychain hash and status of the arguments; when Decrypt has read a header, every key entry in it is a Diffie-Hellman key that matches its hash, and status and counters are in range.", "quantifier": "all messages written and all messages read", "why_tests_cant": "Tests do not read headers of sent messages field by field, nor send headers with inconsistent key entries.", "anchors": ["msg/header.go:newHeader", "msg/header.go:verify", "msg/header.go:readHeader", "msg/encrypt.go:Encrypt"]}
{"id": "C125", "title": "A reset is honoured", "statement": "When a party that lost its sessions sends a message with status Reset, the recipient resets the session and later messages of the recipient can be read again (doc/messages.md, section 4).", "quantifier": "all states of the two parties", "why_tests_cant": "Tests never send a message with status Reset after a session is established.", "anchors": ["doc/messages.md", "msg/decrypt.go:Decrypt", "msg/encrypt.go:Encrypt"]}
{"id": "C126", "title": "The keychain hash is checked", "statement": "A message whose SenderLastKeychainHash is not an entry of the hash chain is rejected (doc/messages.md, section 2.2).", "quantifier": "all messages", "why_tests_cant": "Tests use one fixed last keychain entry.", "anchors": ["doc/messages.md", "msg/decrypt.go:Decrypt", "msg/header.go:verify"]}
{"id": "C127", "title": "Session key cleanup", "statement": "CleanupSessionKeys removes exactly the session keys whose cleanup time is before the given time and nothing else.", "quantifier": "all key stores and times", "why_tests_cant": "Tests call it with one key.", "anchors": ["msg/session/memstore/memstore.go:CleanupSessionKeys", "cryptengine/keystore.go:CleanupSessionKeys"]}
{"id": "C128", "title": "Fetch dialogue", "statement": "However the two processes and their goroutines interleave, and however the bytes are divided into reads and writes, muteprotoFetch stores exactly the messages that precede the first known one, each after its message ID, and returns the receive time of the newest one; an interruption leaves a prefix of these writes; the dialogue neither deadlocks nor runs for ever.", "quantifier": "all message lists, caches, pipe capacities and interleavings", "why_tests_cant": "Tests run the programs with a handful of messages and one schedule.", "anchors": ["ctrlengine/msg.go:muteprotoFetch", "protoengine/fetch.go:fetch"]}
{"id": "C129", "title": "The sender identity reaches the in-queue unchanged", "statement": "The identity that mutecrypt determined for the sender of a message is the one under which mutectrl files the message.", "quantifier": "all mapped identities", "why_tests_cant": "Tests use identities with letters and dots.", "anchors": ["cryptengine/decrypt.go:decrypt", "ctrlengine/msg.go:mutecryptDecrypt", "uid/identity/identity.go:Map"]}
{"id": "C130", "title": "A peer's reply address cannot stop the user from sending", "statement": "Whatever nym address a peer puts into the header of its messages, the user can answer, and the user's other messages are sent.", "quantifier": "all conversations, all nym addresses", "why_tests_cant": "Tests use one fixed nym address.", "anchors": ["cryptengine/encrypt.go:encrypt", "ctrlengine/msg.go:mutecryptEncrypt", "ctrlengine/msg.go:msgSend", "msg/decrypt.go:Decrypt"]}
{"id": "C131", "title": "A message reaches the receiver's message list", "statement": "A message that one of two parties has encrypted for the other, enveloped for a valid nym address of the receiver, sent through the mix and fetched from the account server, becomes, after the receiver's in-queue is processed, exactly one new message from the sender with the text that was encrypted.", "quantifier": "all conversations, messages, accounts, nym addresses, tokens and times before expiry", "why_tests_cant": "Involves two users, the mix, the account server and five programs; no test connects them.", "anchors": ["protoengine/create.go:create", "protoengine/deliver.go:deliver", "util/nymaddr.go:NewNymAddress", "mix/mixcrypt/clientmix.go:NewRelayMessage", "mix/mixcrypt/clientmix.go:ReceiveMessage", "mix/mixcrypt/mixclient.go:ReceiveFromMix", "mix/client/receive.go:fetchmessage", "ctrlengine/msg.go:procInQueue", "ctrlengine/msg.go:mutecryptDecrypt", "msg/decrypt.go:Decrypt"]}
{"id": "C132", "title": "A new database passphrase was entered twice", "statement": "When mutecrypt or mutectrl creates a database, its passphrase is the first line of the input, and it is refused unless the second line is the same, in whatever pieces the input arrives.", "quantifier": "all inputs, all ways of cutting them into pieces", "why_tests_cant": "Tests write short lines in one piece; the slices of the scanner are only changed by later reads when the buffer is moved.", "anchors": ["cryptengine/db.go:dbCreate", "ctrlengine/db.go:dbCreate"]}
{"id": "C133", "title": "Rekeying uses the passphrases that were entered", "statement": "The old passphrase used to rekey is the first line of the input, the new one the second, and it is refused unless the third line equals the second.", "quantifier": "all inputs, all ways of cutting them into pieces", "why_tests_cant": "Tests write short lines; the first slice must stay unchanged during two further reads.", "anchors": ["cryptengine/db.go:dbRekey", "ctrlengine/db.go:dbRekey"]}
{"id": "C134", "title": "Rekeying keeps both databases under one passphrase", "statement": "If the message database and the key database have the same passphrase before mutectrl db rekey, they have the same passphrase afterwards, the new one if the command succeeds and the old one if it fails.", "quantifier": "all disks, passphrases, ways of reading the input", "why_tests_cant": "Involves two programs, a pipe and failures between the two steps.", "anchors": ["ctrlengine/db.go:dbRekey", "ctrlengine/db.go:rekeyKeyDB", "cryptengine/db.go:dbRekey", "encdb/encdb.go:Rekey"]}
{"id": "C135", "title": "Passphrases are overwritten in memory", "statement": "When a function that reads a passphrase returns, the passphrase is no longer in the buffers that were used to read it.", "quantifier": "all inputs, all ways of cutting them into pieces", "why_tests_cant": "Memory that is no longer referenced cannot be inspected by a test.", "anchors": ["cryptengine/db.go:dbCreate", "ctrlengine/db.go:dbCreate", "ctrlengine/db.go:dbRekey", "cryptengine/cryptengine.go:openKeyDB"]}
{"id": "C136", "title": "Commands use a recent, signed configuration", "statement": "Whenever mutectrl performs a command that opens the database, it uses a configuration that a configuration server served, signed by the key built into the program and accepted at most 24 hours ago (7 days with --offline), and the settings of the program are those of this configuration.", "quantifier": "all sequences of commands, restarts, server answers, clocks and failures", "why_tests_cant": "The age only shows over sequences of commands spread over days with servers failing in between.", "anchors": ["ctrlengine/ctrlengine.go:getConfig", "ctrlengine/upkeep.go:upkeepFetchconf", "ctrlengine/ctrlengine.go:prepare", "configclient/client.go:Update", "def/def.go:InitMute"]}
{"id": "C137", "title": "mutectrl uses the stored configuration", "statement": "The entries of the configuration mutectrl works with are those of the configuration stored in the message database.", "quantifier": "all states, also of a second process that changed the stored configuration", "why_tests_cant": "Needs two processes and a configuration from which an entry was removed.", "anchors": ["ctrlengine/ctrlengine.go:getConfig", "configclient/client.go:Config"]}
{"id": "C138", "title": "The stored configuration never gets older and is usable", "statement": "Over any sequence of commands the date of the stored configuration does not decrease, a stored configuration is not lost, and whatever is stored was signed and can be used by the program.", "quantifier": "all sequences of commands, restarts and failures", "why_tests_cant": "Rollback shows only over sequences of fetches from different servers.", "anchors": ["ctrlengine/upkeep.go:upkeepFetchconf", "configclient/client.go:Update"]}
{"id": "C139", "title": "--offline makes no connection", "statement": "With the option --offline mutectrl opens no network connection while it prepares a command, also in an interactive session started with it.", "quantifier": "all states, commands and sessions", "why_tests_cant": "Tests run single commands, not sessions whose lines have their own options.", "anchors": ["ctrlengine/ctrlengine.go:prepare", "ctrlengine/ctrlengine.go:loop", "ctrlengine/upkeep.go:upkeepFetchconf", "ctrlengine/ctrlengine.go:getConfig"]}
{"id": "C140", "title": "A failed fetch of the configuration does no lasting harm", "statement": "If the configuration cannot be fetched because no server answers, the command fails, and later commands work again as soon as a server answers.", "quantifier": "all states and server answers", "why_tests_cant": "Needs a failing network followed by a working one within one process.", "anchors": ["ctrlengine/upkeep.go:upkeepFetchconf", "configclient/client.go:Update"]}
{"id": "C141", "title": "Outdated programs are told so, and refused after 14 days", "statement": "A command tells the user about a newer release if there is one, refuses to work exactly if the program is more than 14 days older than the release, and upkeep update then installs the release; a broken announcement of a release does not block the program.", "quantifier": "all configurations, dates and states", "why_tests_cant": "Dates lie weeks apart.", "anchors": ["ctrlengine/ctrlengine.go:checkUpdates", "ctrlengine/upkeep.go:upkeepUpdate", "ctrlengine/ctrlengine.go:prepare"]}
{"id": "C142", "title": "Only private keys of 64 bytes are used as wallet key", "statement": "A wallet key is accepted exactly if it is the base64 encoding of 64 bytes; a key that is not is refused before anything is created.", "quantifier": "all strings", "why_tests_cant": "Tests use generated keys.", "anchors": ["ctrlengine/ctrlengine.go:startWallet", "ctrlengine/wallet.go:printWalletKey", "encode/base64/base64.go:Decode"]}
{"id": "C143", "title": "The delays are at least a minute and in order", "statement": "If uid new or uid edit accepts the delays then the stored delays are the given ones, the smaller is at least 60 seconds and less than the larger.", "quantifier": "all integers", "why_tests_cant": "The failing values are larger than 32 bits.", "anchors": ["ctrlengine/ctrlengine.go:checkDelayArgs", "ctrlengine/uid.go:uidNew"]}
{"id": "C144", "title": "The programs share one configuration", "statement": "When a command is performed, the configuration file that mutecrypt and muteproto read holds the stored configuration, with the entries that mutectrl uses.", "quantifier": "all sequences of commands, restarts and failures", "why_tests_cant": "Needs a write that fails between two fetches.", "anchors": ["ctrlengine/upkeep.go:upkeepFetchconf", "ctrlengine/upkeep.go:writeConfigFile", "def/def.go:InitMuteFromFile"]}
{"id": "C145", "title": "db create creates everything or nothing", "statement": "If mutectrl db create succeeds, both databases open with the passphrase, the configuration is stored and written, and the wallet key is stored; if it fails it can be repeated.", "quantifier": "all disks, passphrases, environments", "why_tests_cant": "Needs failures between the steps of two programs.", "anchors": ["ctrlengine/db.go:dbCreate", "cryptengine/db.go:dbCreate", "encdb/encdb.go:Create"]}
{"id": "C146", "title": "The pages of the app are served to the last login only", "statement": "The server of the app mode serves a page to a request exactly if its cookie has the value handed out by the last successful login.", "quantifier": "all sequences of requests", "why_tests_cant": "The space of requests and cookies is unbounded.", "anchors": ["ctrlengine/app.go:staticHandler", "ctrlengine/app.go:loginHandler", "cipher/randpass.go:RandPass"]}
{"id": "C147", "title": "Only the passphrase of the database logs in", "statement": "A login to the app succeeds only with the passphrase that opens the message database.", "quantifier": "all sequences of requests, all passphrases", "why_tests_cant": "Needs sequences of logins with failures in between.", "anchors": ["ctrlengine/app.go:loginHandler", "ctrlengine/ctrlengine.go:prepare", "ctrlengine/ctrlengine.go:openMsgDB"]}
{"id": "C148", "title": "No answer of a guard server crashes the client", "statement": "Whatever JSON members a key lookup, issuer or wallet server answers with, the calls of the client return a result or an error and do not panic.", "quantifier": "all JSON answers", "why_tests_cant": "Answers with members of unexpected types are unbounded in shape; the tests use well-formed servers.", "anchors": ["serviceguard/client/keylookup/impl.go:getKey", "serviceguard/client/guardrpc/client.go:Reissue", "serviceguard/client/walletrpc/client.go:getToken"]}
{"id": "C149", "title": "The list of verification keys is the one the trust root signed", "statement": "GetVerifyList returns keys only if the list was signed by the trust root, and returns exactly the keys whose hexadecimal forms stand in that list; other lists are refused.", "quantifier": "all answers of the key server, all trust roots", "why_tests_cant": "Needs arbitrary signed and unsigned lists.", "anchors": ["serviceguard/client/keylookup/impl.go:GetVerifyList"]}
{"id": "C150", "title": "A client trusts the currently listed keys only", "statement": "At every time each verification key a client trusts stands in the last list signed by the trust root, and each issuer key it knows is signed by such a key.", "quantifier": "all sequences of client operations and server answers", "why_tests_cant": "Needs all interleavings of operations, restarts and answers.", "anchors": ["serviceguard/client/clientlib.go:GetVerifyKeys", "serviceguard/client/clientlib.go:GoOnline", "serviceguard/common/keypool/generator.go:loadKey", "serviceguard/client/walletstore/store.go:GetVerifyKeys"]}
{"id": "C151", "title": "A verified token was signed with the key it names", "statement": "If Client.Verify accepts a token, its signature verifies under the unexpired issuer key that the token names, and this key was signed by a key listed by the trust root.", "quantifier": "all histories of the client, all tokens, all answers of the lookup server", "why_tests_cant": "The test server always answers with the right key.", "anchors": ["serviceguard/client/verify.go:Verify", "serviceguard/client/verify.go:getPubKey", "serviceguard/client/keylookup/impl.go:GetKey"]}
{"id": "C152", "title": "Received tokens are good, owned and new", "statement": "ReceiveToken stores a token exactly if it verifies, has the expected usage, belongs to the wallet and was never received before; it does not crash, and the stored token can be used like any other.", "quantifier": "all tokens, wallets and answers", "why_tests_cant": "Needs crafted tokens and repeated reception.", "anchors": ["serviceguard/client/receive.go:ReceiveToken", "serviceguard/client/reissue.go:ReissueToken"]}
{"id": "C153", "title": "Every token stored by a wallet verifies", "statement": "A token that WalletToken or ReissueToken stores is accepted by Verify, has the usage and expiry of the key it names, and replaces the old token.", "quantifier": "all tokens and answers of the issuer and the wallet server", "why_tests_cant": "Needs issuers that answer with wrong signatures.", "anchors": ["serviceguard/client/walletserver.go:WalletToken", "serviceguard/client/reissue.go:ReissueToken", "serviceguard/client/packetproto/methods.go:Unblind"]}
{"id": "C154", "title": "A reissue request is consistent and accepted by the issuer", "statement": "The packet made by Reissue names the old token, asks for a token for the new owner under a valid key of the same usage and signer, and its signature is accepted by the issuer's check.", "quantifier": "all tokens, parameters, key pools and random values", "why_tests_cant": "The tests only use tokens with owners.", "anchors": ["serviceguard/client/packetproto/methods.go:Reissue", "serviceguard/common/types/types.go:Verify"]}
{"id": "C155", "title": "The runner can be started, used and stopped", "statement": "Calls of Runner, SetTarget and StopRunner in any number of threads never block each other for ever, and StopRunner ends the runner.", "quantifier": "all thread counts and interleavings", "why_tests_cant": "Deadlocks depend on interleavings and repeated calls.", "anchors": ["serviceguard/client/runner.go:runner", "serviceguard/client/runner.go:StopRunner", "serviceguard/client/runner.go:meetTarget", "serviceguard/client/clientlib.go:SetTarget"]}
{"id": "C156", "title": "Different issuers have different addresses", "statement": "pubKeyToURL gives different URLs for different issuer keys and for the internal and the public interface.", "quantifier": "all keys and URL templates", "why_tests_cant": "All pairs of keys cannot be tested.", "anchors": ["serviceguard/client/guardrpc/client.go:pubKeyToURL"]}
{"id": "C157", "title": "A created nym is complete", "statement": "If uid new succeeds, the ID was neither in the message database nor registered before; afterwards the nym with the given name and its account (private key, server, secret, delays) are in the database, the ID is registered at the key server with a key pair whose private part is in the key database, a key init for that key is published and its private part stored, three different tokens (one per usage) were spent and exactly these removed from the wallet, and the nym becomes the active one if there was none.", "quantifier": "all user IDs, databases, wallets and server states", "why_tests_cant": "needs three servers, a second process and a wallet; success leaves state in five places which no test compares", "anchors": ["ctrlengine/uid.go:uidNew", "ctrlengine/uid.go:mutecryptNewUID", "cryptengine/uid.go:generate", "cryptengine/uid.go:registerOrUpdate", "cryptengine/keyinit.go:addKeyInit"]}
{"id": "C158", "title": "A failed uid new can be repeated", "statement": "If uid new fails, a later uid new for the same ID succeeds once all servers answer and tokens are available.", "quantifier": "all histories of uid commands and all points of failure", "why_tests_cant": "every step can fail at its server or by losing the answer; the retry depends on what each failure left behind", "anchors": ["ctrlengine/uid.go:uidNew", "ctrlengine/uid.go:mutecryptNewUID", "cryptengine/uid.go:deleteUID"]}
{"id": "C159", "title": "A refused registration is reported", "statement": "If the key server refuses to register the ID, uid new returns the error of the registration to the user and uses no further token.", "quantifier": "all user IDs, all errors of the key server", "why_tests_cant": "the error is kept in a variable while three further commands are sent to the mutecrypt process", "anchors": ["ctrlengine/uid.go:mutecryptNewUID"]}
{"id": "C160", "title": "The active nym exists", "statement": "The active nym, if one is set, is always a nym of the message database.", "quantifier": "all histories of uid new, edit, switch and delete, whatever the servers answer", "why_tests_cant": "an invariant between the key value table and the nym table over all command histories", "anchors": ["ctrlengine/uid.go:uidNew", "ctrlengine/uid.go:uidSwitch", "ctrlengine/uid.go:uidDelete"]}
{"id": "C161", "title": "uid delete removes the nym and its keys and accounts", "statement": "After uid delete for a nym, its private keys are gone from the key database, its accounts from the servers and the nym from the message database; if a step fails, the command can be repeated.", "quantifier": "all nyms, all histories, all outcomes of the processes and servers", "why_tests_cant": "depends on rows left by failed commands and on failures between the deletions", "anchors": ["ctrlengine/uid.go:uidDelete", "ctrlengine/uid.go:mutecryptDeleteUID", "cryptengine/uid.go:deleteUID"]}
{"id": "C162", "title": "uid commands lose no tokens", "statement": "A token that leaves the wallet was accepted by a server, and a token accepted by a server is not offered again.", "quantifier": "all histories of uid commands, whatever the servers answer and wherever mutecrypt dies", "why_tests_cant": "tokens are locked, deleted and freed by mutectrl according to what it reads from another process", "anchors": ["ctrlengine/uid.go:uidNew", "ctrlengine/uid.go:mutecryptNewUID"]}
{"id": "C163", "title": "The key store of the program answers like the one of the tests", "statement": "For every sequence of calls of Encrypt and Decrypt, on any connections to the key database and with any KeyInit messages at hand: the implementation of the session store on the key database (cryptengine/keystore.go, package keydb) gives the same results and the same output as the in-memory implementation (msg/session/memstore) with which the protocol is tested. (False: a session that is extended loses the new message keys. It holds as long as no call extends a session or stores a session key twice.)", "quantifier": "all crypto primitives, all sequences of calls of Encrypt and Decrypt with all arguments and random choices, all KeyInit messages, all placements of connections, both stores empty of sessions at the start", "why_tests_cant": "The tests of package msg use the in-memory store only and the tests of package keydb call single methods; a comparison over all sequences of calls needs an inductive simulation.", "anchors": ["cryptengine/keystore.go:18-217", "keydb/session.go:16-157", "keydb/sessionstate.go:16-134", "keydb/sessionkey.go:14-63", "msg/session/memstore/memstore.go:20-289", "msg/encrypt.go:106-441", "msg/decrypt.go:102-582"]}
{"id": "C164", "title": "At most fifty messages per session", "statement": "mutecrypt is started once per message. After the first message of a session stored n message keys (50 by default), at most n messages to the same recipient are sent in that session; from then on every call of Encrypt fails and writes nothing, however often it is repeated and whatever number of keys is asked for, unless a message of the peer changes the session. (Proposals of a next session may be made by any of the first n messages.)", "quantifier": "all crypto primitives, all key databases without a session for the new session key, all following sequences of calls for the same two keys without a reset, whatever their contents, random values and numbers of keys", "why_tests_cant": "Sending more than 50 messages without an answer through separately started processes is not done in any test; that every later call fails is a statement about unbounded sequences.", "anchors": ["ctrlengine/msg.go:45-125", "cryptengine/encrypt.go:20-77", "msg/encrypt.go:262-293", "keydb/session.go:16-93", "cryptengine/keystore.go:109-139"]}
{"id": "C165", "title": "A mix always has a published key, if keys live long enough", "statement": "From the first turn of Maintain on, the address list signed by the mix names a key that is not expired and whose private part the mix holds, at every moment, if the lifetime of keys is at least the time between new keys plus the time between two turns of the loop. If keys live shorter than the time between new keys (as with the numbers in clientmix_test.go: two hours, one day), then from the expiry of a key to the next new key the mix has no usable key, and everything on its signed list is expired.", "quantifier": "all crypto primitives with 32-byte keys, all durations, frequencies, all sequences of turns with a monotonic clock, all orders of map iteration, all lists of keys at the start", "why_tests_cant": "The test waits half a minute and counts keys; the claim is about every moment of unbounded runs and about the relation of three durations.", "anchors": ["mix/mixaddr/privkey.go:70-83", "mix/mixaddr/privkey.go:98-119", "mix/mixaddr/privkey.go:175-234"]}
{"id": "C166", "title": "Expired private keys of a mix are gone", "statement": "Once a mix key is expired, its private part no longer exists at the mix: neither in memory two turns of the maintenance loop later, nor in a file. (The files keep every key for ever, since AddKey writes a new file and none is removed; and when the turns are further apart than NewKeyFrequency no turn ever looks for expired keys.)", "quantifier": "all crypto primitives, all durations and frequencies, all sequences of turns, all orders of map iteration", "why_tests_cant": "Tests count the keys in memory for one frequency; nothing looks at old key files, and that no later turn removes them is a statement about all continuations.", "anchors": ["mix/mixaddr/privkey.go:98-119", "mix/mixaddr/privkey.go:175-219"]}
{"id": "C167", "title": "A restarted mix has its keys again", "statement": "A mix that loads its newest key file has exactly the private keys it had before the restart, as far as they are not expired, and signs a list of exactly these keys. (This depends on every write of a key file having succeeded; saveKeys ignores the error, and a key then is on the signed list although a restart loses it.)", "quantifier": "all crypto primitives, all runs of the maintenance loop with a monotonic clock, all times of the restart, all orders of map iteration", "why_tests_cant": "The test marshals and unmarshals one list at one time; runs with expiry between saving and loading, or with a failing disk, are not tested.", "anchors": ["mix/mixaddr/privkey.go:121-158", "mix/mixaddr/privkey.go:196-234"]}
{"id": "C168", "title": "Boundary times of the mix keys", "statement": "GetBoundaryTime returns the smallest and the largest expiry time in the key list, independent of the order in which the map is read.", "quantifier": "all non-empty key lists with positive expiry times, all orders of iteration", "why_tests_cant": "The test checks one list of three keys in one random order.", "anchors": ["mix/mixaddr/privkey.go:160-173"]}
{"id": "C169", "title": "A contact is added exactly after its key was looked up and verified", "statement": "When mutectrl adds a new contact, the dialogue with mutecrypt ends in success exactly if the hash chain of the domain was synchronised and validated, the entries of the key server and of the contact were found in it, and a key of the contact was fetched, in this order; otherwise the contact is not added, the first failure is reported and no later operation was tried.", "quantifier": "all identities, all states of the key database, all outcomes and error texts of the operations", "why_tests_cant": "The dialogue is text: it depends on how identities are split into words and lines, on flags, and on error texts written by servers; tests use well-behaved names and servers.", "anchors": ["ctrlengine/contact.go:33-196 mutecryptAddContact", "cryptengine/cryptengine.go:100-150 loop", "ctrlengine/contact.go:240-278 contactAdd"]}
{"id": "C170", "title": "mutecrypt executes only the commands of the dialogue", "statement": "While a contact is added mutecrypt is given a prefix of the five commands (sync, validate, search of the key server, search of the contact, fetch of its key) and quit, with the identity and its domain as arguments, and no other command.", "quantifier": "all mapped identities, all states, all outcomes of the operations", "why_tests_cant": "An identity with a newline or other white space becomes words or lines of a command; no test tries such identities.", "anchors": ["ctrlengine/contact.go:33-196 mutecryptAddContact", "cryptengine/cryptengine.go:100-150 loop", "uid/identity/identity.go MapPlus"]}
{"id": "C171", "title": "Ctrl+C ends mutecrypt and mutectrl", "statement": "After a signal SIGINT the process ends: whatever the engine is doing and in whatever order the goroutines run, the handler and the main goroutine need only a bounded number of steps and one of them can always go on.", "quantifier": "all programs of the engine, all interleavings of the goroutines, all moments of the signal, any number of signals", "why_tests_cant": "The outcome depends on the moment of the signal and on the scheduling of goroutines; tests cannot enumerate them.", "anchors": ["util/interrupt/interrupt.go:28-62 mainInterruptHandler, AddInterruptHandler", "cmd/mutecrypt/mutecrypt.go:23-46 mutecryptMain", "cmd/mutectrl/mutectrl.go:23-46 mutectrlMain"]}
{"id": "C172", "title": "Ctrl+C does not crash the process", "statement": "No interleaving of the signal handler, the engine and the main goroutine leads to a panic: the database of the engine is not used or closed through a nil pointer.", "quantifier": "all programs of the engine, all interleavings, all moments of the signal", "why_tests_cant": "A race between goroutines that share the field of the engine.", "anchors": ["cryptengine/cryptengine.go:881-888 Close", "ctrlengine/ctrlengine.go:1410-1420 Close", "util/interrupt/interrupt.go:28-48 mainInterruptHandler"]}
{"id": "C173", "title": "Exit status and database at the end of the process", "statement": "When the process ends by itself, its status is an error only if the engine ended with that error, it is success only if the engine ended without error or a signal arrived, and every database handle the engine opened is closed.", "quantifier": "all programs of the engine, all interleavings, all moments of the signal", "why_tests_cant": "Depends on which goroutine main receives from first and on what the engine does meanwhile.", "anchors": ["cmd/mutecrypt/mutecrypt.go:23-46 mutecryptMain", "cryptengine/cryptengine.go:849-859 Start", "cryptengine/cryptengine.go:881-888 Close"]}
{"id": "C174", "title": "msg read shows the message as a mail and marks only it", "statement": "mutectrl msg read writes the numbered message if it belongs to the user, marks it and nothing else as read, and what it writes is a mail with exactly the fields Date, From, To, Subject (if the first line is not empty), MIME-Version and Content-Type, with the parties, the first line as decoded subject and the rest of the text as body. msg delete removes exactly that message.", "quantifier": "all databases, users, message numbers, message texts and names", "why_tests_cant": "Message texts come from other users; that none of them can add a header field is a statement about all byte strings.", "anchors": ["ctrlengine/msg.go:889-922 msgRead, msgDelete", "msgdb/messages.go:71-174 GetMessage, ReadMessage, DelMessage", "msg/mime/mime.go:128-136 SplitMessage"]}
{"id": "C175", "title": "msg add stores the text once for a white-listed contact", "statement": "mutectrl msg add succeeds only for an existing user and a white-listed contact of it, and then stores exactly one new message with the text as given, waiting to be sent, and changes nothing else; for an existing user and such a contact it succeeds.", "quantifier": "all databases, identities, texts, dates, options", "why_tests_cant": "The tests add single messages to single contacts.", "anchors": ["ctrlengine/msg.go:106-187 msgAdd", "msgdb/messages.go:17-68 AddMessage"]}
{"id": "C176", "title": "A mail is taken as message with its subject and recipient", "statement": "msg add --mail sends the body of the mail, with the subject as first line, to the recipient named in the To field; in particular a mail written by msg read is taken back as the message it shows, and its sender can be answered.", "quantifier": "all mails, all stored messages", "why_tests_cant": "Depends on encoding, case and order of the header fields; the test has one mail.", "anchors": ["ctrlengine/mail/mail.go:20-44 Parse", "ctrlengine/msg.go:159-185 msgAdd"]}
{"id": "C177", "title": "msg list shows each message of the user in one line", "statement": "mutectrl msg list writes exactly one line for each message of the user, in the order of the table, from which direction, state, number, date, sender, recipient and first line of the text can be read back.", "quantifier": "all histories of the message database, all users", "why_tests_cant": "The lines are built from texts and addresses other users choose; tests list none.", "anchors": ["ctrlengine/msg.go:848-887 msgList", "msgdb/messages.go:189-247 GetMsgIDs"]}
{"id": "C178", "title": "After an update from source, the installed programs are of the commit in the signed configuration", "statement": "If upkeep update reports success, every command of the commit named by release.Commit is installed, built from exactly that commit and with it as its own release; other programs are unchanged, release/head.go holds the commit, and the repository is clean and on master again. Holds for a full commit hash; refuted for a release named by a tag, where the installed program carries another release than the configuration.", "quantifier": "all configurations, repositories, histories pulled, running releases and failures of the programs called", "why_tests_cant": "An update needs git, go, a repository with history and a release server; tests run none of this.", "anchors": ["ctrlengine/upkeep.go:159-317", "util/git/git.go", "util/gotool/gotool.go", "cmd/mutegenerate/mutegenerate.go"]}
{"id": "C179", "title": "No update is done when the running program is up to date or newer, and a successful update is not repeated", "statement": "The outcome is up to date exactly if the release of the running program is the configured commit, and newer binary exactly if it is another one and its date is after the configured date; in both cases nothing is changed. After a successful update the new mutectrl finds itself up to date (for a full hash; refuted for a tag: it updates again on each run).", "quantifier": "all configurations, dates, running releases and repositories", "why_tests_cant": "The second run is made by the newly built program, which no test builds.", "anchors": ["ctrlengine/upkeep.go:249-317"]}
{"id": "C180", "title": "A failed update from source can be repeated and then installs the commit", "statement": "After any run, whatever failed in it, a later run in which the programs work installs all commands of the commit and returns to master, as long as mutectrl itself was not replaced; if the last installation and checkout work, a failed run replaces no program but mutegenerate. Refuted in general: if the last go install fails after it has replaced mutectrl, each later run says up to date and mutecrypt stays at the old release.", "quantifier": "all points of failure, all sets of programs already replaced, all clean repositories with a branch master", "why_tests_cant": "Needs failures of git and go at each point of the update.", "anchors": ["ctrlengine/upkeep.go:159-317"]}
{"id": "C181", "title": "A signing key that was issued is found again after a restart", "statement": "Every key that Current returned is in the pool of a service after it loads its storages, as long as the key is not expired: for any chain of key directories and key tables, any failures of single storages and any restarts in between. Holds if there is a directory or a table that never refuses, the storages held nothing else before and no key file is written in part; refuted for a key file written in part, for a foreign file in the directory, and for a table that refuses the key without anyone being told.", "quantifier": "all chains of storages, all histories of calls, failures and restarts, all orders of reading", "why_tests_cant": "The failures of storages at each write and the order of reading a directory are beyond what tests vary.", "anchors": ["serviceguard/common/keypool/generator.go:157-289", "serviceguard/common/keypool/keydir/filestorage.go", "serviceguard/common/keypool/keydb/dbstorage.go"]}
{"id": "C182", "title": "A signing key is found by its identifier in any key table that has it", "statement": "A service that has not loaded keys finds each key that Current returned by its identifier, if one key table worked in all calls and works now, whatever the other storages do. Refuted if a table registered earlier holds something else under the identifier.", "quantifier": "all chains of storages, all histories of calls and failures, all failures of other storages at the lookup", "why_tests_cant": "Needs several databases with failures.", "anchors": ["serviceguard/common/keypool/generator.go:104-127,252-289", "serviceguard/common/keypool/keydb/dbstorage.go:141-161"]}
{"id": "C183", "title": "Loading storages puts only verified keys into the key pool", "statement": "Whatever files and rows the storages hold, each key in the pool after Load is stored under its identifier, has the identifier computed from its fields, is signed by a trusted signer, has the usage of the pool and is not expired.", "quantifier": "all contents of storages, all failures, all orders of reading", "why_tests_cant": "Unbounded contents of storages.", "anchors": ["serviceguard/common/keypool/generator.go:203-233", "serviceguard/common/keypool/keydir/filestorage.go:41-60", "serviceguard/common/keypool/keydb/dbstorage.go:164-190"]}
{"id": "C184", "title": "Requests about a domain go to its key server", "statement": "All requests of mutecrypt about a domain go to the key server of that domain: the host given with --keyhost, else the one in the configuration, at the port that is named.", "quantifier": "all sequences of commands in one process, all configurations and answers", "why_tests_cant": "The cache is filled by earlier commands, so the failing sequences are not the ones a test of one command runs.", "anchors": ["cryptengine/cache/cache.go:Get", "cryptengine/cache/cache.go:newClient", "cryptengine/capabilities.go:getCapabilities"]}
{"id": "C185", "title": "Only announced methods are called and nothing crashes", "statement": "A method is called at a key server only if the capabilities last read from this server list it, and no command crashes because of the cache or of the capabilities.", "quantifier": "all sequences of commands and all answers of servers", "why_tests_cant": "Tests use one good server.", "anchors": ["cryptengine/cache/cache.go:Get", "cryptengine/cache/cache.go:Set", "cryptengine/keyinit.go:addKeyInit", "cryptengine/uid.go:registerOrUpdate"]}
{"id": "C186", "title": "Refreshing the capabilities replaces those of one server", "statement": "caps get replaces what is known about its domain by the answer, and nothing about other domains, or changes nothing; caps show shows the capabilities of the host that is named.", "quantifier": "all caches, domains, hosts and answers", "why_tests_cant": "Interplay of several domains and failures.", "anchors": ["cryptengine/cache/cache.go:Set", "cryptengine/cache/cache.go:ShowCapabilities", "cryptengine/capabilities.go:getCapabilities"]}
{"id": "C187", "title": "Key servers are asked over TLS with the own certificate", "statement": "Every request to a key server is sent to an https address and the server is checked with the certificate of the program.", "quantifier": "all sequences of commands, all configurations", "why_tests_cant": "The configuration used by tests is correct.", "anchors": ["util/jsonclient/jsonclient.go:New", "cryptengine/cache/cache.go:newClient"]}
{"id": "C188", "title": "The generated release file names the commit checked out", "statement": "After mutegenerate -o has ended with status 0, the file is the Go code, or with -r the JSON object, that names the commit and the date of HEAD and nothing else.", "quantifier": "all sequences of runs with any commits, dates, modes and failures of git and of the file system", "why_tests_cant": "The file is generated while the program is built; no test runs the generator twice or in two modes.", "anchors": ["cmd/mutegenerate/mutegenerate.go:printCode,commitChanged,main"]}
{"id": "C189", "title": "The generator leaves a current file alone", "statement": "While HEAD stays the same, mutegenerate does not write the file again; for another commit it does.", "quantifier": "all commits, dates and modes", "why_tests_cant": "The comparison reads the file that the other function writes; agreement of the two for all commits is beyond single examples.", "anchors": ["cmd/mutegenerate/mutegenerate.go:commitChanged,printCode"]}
{"id": "C190", "title": "A release file written in part is repaired", "statement": "If the writing of the file is cut short anywhere, the next run of mutegenerate writes it again, and a run that could not write the file does not end with status 0.", "quantifier": "all prefixes of the file", "why_tests_cant": "Full disks and crashes at every byte.", "anchors": ["cmd/mutegenerate/mutegenerate.go:commitChanged,main"]}
{"id": "C191", "title": "A message is reported as revoked exactly if the mix says so", "statement": "RevokeMessage reports success exactly if the mix answered REVOKED to a request with the identifier of the message.", "quantifier": "all answers and identifiers", "why_tests_cant": "All answers of a server, also the shortest one.", "anchors": ["mix/client/mixrpc.go:RevokeMessage"]}
{"id": "C192", "title": "A mix is asked at its primary mail host", "statement": "The RPCs of a mix go to the primary mail host of the domain of its address, at the configured port; if DNS fails, to the domain itself; and to nobody if there is no such host.", "quantifier": "all addresses, DNS answers and random numbers", "why_tests_cant": "DNS answers with several records and quoted local parts.", "anchors": ["mix/client/mixrpc.go:getMixAddressReal", "mix/smtpclient/client.go:LookupMX,GetMailDomain"]}
{"id": "C193", "title": "Deletion and expiry of an account are reported as the server said", "statement": "DeleteAccount succeeds exactly if one of at most four requests, those before it being refused as replays, was answered with true; AccountStat gives exactly the time of such an answer.", "quantifier": "all sequences of answers, all times below 2^53 seconds", "why_tests_cant": "Sequences of answers; the detour over float64.", "anchors": ["mix/client/accountrpc.go:DeleteAccount,delAccount,AccountStat,accountStat"]}
{"id": "C194", "title": "The list of messages has the times the server sent", "statement": "ListMessages gives the identifiers, keys and times of the messages as the server sent them.", "quantifier": "all lists of messages", "why_tests_cant": "JSON numbers are float64 in Go; the loss shows only for times of today in nanoseconds.", "anchors": ["mix/client/accountrpc.go:listMessages"]}
{"id": "C195", "title": "The passphrase entered at mutectrl is the passphrase of both databases", "statement": "After a successful mutectrl db create or db rekey, the passphrase that was entered is the passphrase of the message database and of the key database, and every command of mutectrl that is given it opens both: mutecrypt gets it through a pipe as it was entered. In the same way muteproto gets the private key of the mailbox.", "quantifier": "all passphrases, ways of reading, histories of db create and db rekey", "why_tests_cant": "tests use short passphrases of letters", "anchors": ["ctrlengine/db.go:createKeyDB", "ctrlengine/db.go:rekeyKeyDB", "ctrlengine/db.go:mutecryptDBStatus", "ctrlengine/ctrlengine.go:openMsgDB", "util/util.go:Readline", "cryptengine/cryptengine.go:openKeyDB", "protoengine/fetch.go:fetch"]}
{"id": "C196", "title": "A key found by the lookup service is genuine and kept", "statement": "A pool whose storages are extended by the lookup service returns only keys that have the identifier asked for and were signed by a trusted signer, whatever the service answers; and a key that a lookup returned is stored, so that after a restart it is found without the service until it expires.", "quantifier": "all answers of the service, storages, faults, histories of lookups and restarts", "why_tests_cant": "needs a hostile service, failing storages and restarts in combination", "anchors": ["serviceguard/client/keylookup/impl.go:RegisterStorage", "serviceguard/common/keypool/generator.go:RegisterStorage", "serviceguard/common/keypool/generator.go:Lookup", "serviceguard/common/keypool/generator.go:SaveKeyUnsafe"]}
{"id": "C197", "title": "The local copy of a hash chain follows the key server", "statement": "If the key server of a domain answers correctly and only appends to its chain, then after any history of synchronisations (each of whose calls may fail, and during which the database may refuse entries), deletions and other work on the key database, hashchain show prints a first part of the chain of the server, in order; the part only grows unless the copy is deleted; a synchronisation that succeeds makes it the whole chain; deleting one copy leaves those of other domains as they are; and the copy of a valid chain is found valid.", "quantifier": "all histories, chains of up to 2^53 entries, domains, and all points at which calls or the database fail", "why_tests_cant": "Tests synchronise once with a server that works; the interplay of interrupted synchronisations, deletions and several domains is not exercised, and an error of the database is reported as success.", "anchors": ["cryptengine/hashchain.go:syncHashChain,showHashChain,deleteHashChain,validateHashChain", "keydb/keydb.go:AddHashChainEntry,GetLastHashChainPos,GetHashChainEntry,DelHashChain"]}
{"id": "C198", "title": "mutecrypt and muteproto understand mutectrl", "statement": "Every process that mutectrl starts reads its command line as the command that was meant: mutecrypt or muteproto runs that command with exactly the given global options, options and numbers, whatever the values are, and finds the passphrase, the message and the command lines at the file descriptors where mutectrl put them; the same holds for the command lines sent to the loop of mutecrypt. The command db vacuum rebuilds both databases.", "quantifier": "all option values, identities, domains, hosts, tokens, numbers of the Go types, all kinds of processes started", "why_tests_cant": "Tests start the programs with a few ordinary values; values that begin with a dash or are empty, and the rarely used db vacuum, are not tried.", "anchors": ["ctrlengine/db.go:29-48", "ctrlengine/db.go:338-380", "ctrlengine/msg.go:41-66", "ctrlengine/msg.go:196-212", "ctrlengine/uid.go:45-267", "ctrlengine/upkeep.go:401-456", "cryptengine/cryptengine.go:155-844", "protoengine/protoengine.go:73-198", "util/descriptors/descriptors.go:64-123"]}
{"id": "C199", "title": "The sequential fuzzer tries every bit once", "statement": "For data, a test function and a range that is not reversed, Fuzz runs the test once for every bit of the range, in order, each time on a copy of the data with exactly that bit changed; Errors holds the answers, TestCount and ErrorCount are the numbers of tests and of noticed changes, the data is unchanged, and the result is true exactly if every change was noticed. It panics exactly without data, without a test function or with a reversed range.", "quantifier": "all data, ranges and test functions, also with a state of their own", "why_tests_cant": "The fuzzer is the tool of the tests; its own test uses one short text and cannot see a bit that is skipped or tried twice.", "anchors": ["util/fuzzer/fuzzer.go:20-46", "util/fuzzer/fuzzer.go:49-55"]}
{"id": "C200", "title": "Comparing session states", "statement": "StateEqual returns true exactly if two session states have the same contents: counters, keys (compared by content, wherever they are in memory), nym address and the mark for KeyInit sessions; it always answers.", "quantifier": "all states, pointers and memories", "why_tests_cant": "The test compares states that both have the keys of the next session or both lack them.", "anchors": ["msg/session/session.go:28-61", "uid/keyentry.go:42-59"]}
{"id": "C201", "title": "Every own nym is tried when a message is decrypted, and a key change loses no messages", "statement": "After any sequence of commands on identities (generate, register, update, delete, KeyInit messages), the list of identities a message is tried to be decrypted for can be built. It contains every nym with a stored private UID message and no other, each once, with the message that counts and with private keys that belong to the public keys in it. Although only the most current message of a nym is used, the encryption key of an earlier message stays the one in the list through all further commands, until the nym is generated again or deleted.", "quantifier": "All sequences of commands, all key servers and answers, all keys, all nyms.", "why_tests_cant": "A test updates one nym once; that nothing is lost through any interleaving of updates, registrations and commands for other nyms is a statement about all histories, and about rows that share counters or messages.", "anchors": ["cryptengine/decrypt.go:21-37 getRecipientIdentities", "keydb/keydb.go:433-451 GetPrivateIdentities", "uid/uid.go Update", "cryptengine/uid.go"]}
{"id": "C202", "title": "The cursor of the editor is shown at its place and can reach every cell", "statement": "After any changes of the text and any movements that leave the cursor inside the text, drawing the editor in a window of any size ends and shows an enabled, not hidden cursor at its place and nowhere else; a disabled or hidden cursor is not shown, and the cursor changes nothing else of what is drawn. With the arrow keys, or the keys that stand for them, every cell of the text area can be reached; the page keys move by the height of the window within the text; other keys do nothing.", "quantifier": "All texts, all width functions (widths 0 to 2), all sequences of changes, movements and keys, all window sizes.", "why_tests_cant": "The loop that draws skips columns by the width of the character it has just drawn, so whether a column is visited depends on all characters before it; a test with one text does not visit a cursor in every column.", "anchors": ["tui/editor/view.go:30-73 Draw", "tui/editor/view.go:165-225 HandleEvent", "tui/editor/model.go:44-103"]}
{"id": "C203", "title": "Vacuum sets the mode that was asked for", "statement": "After Vacuum with a mode has succeeded, Status reports this mode and no free pages, and without a mode the mode stays; a name that is no mode is refused before anything is changed, no data is lost, and Incremental works only in mode INCREMENTAL and frees at most the given number of pages.", "quantifier": "all histories of a database (writing, closing, opening, maintenance) and all outcomes of the SQL statements", "why_tests_cant": "the one test runs the calls in a fixed order on a fresh database with every statement succeeding; that a mode asked for by a failed call stays pending on the connection shows only after a failure", "anchors": ["encdb/encdb.go:Status", "encdb/encdb.go:Vacuum", "encdb/encdb.go:Incremental", "encdb/util.go:containsString", "ctrlengine/db.go:dbVacuum"]}
{"id": "C204", "title": "A key entry hands out the keys it is said to hold", "statement": "Whatever was done with a key entry before (loading, generating, setting a private key, asking for keys), the public key it hands out is the one encoded in its PUBKEY field and no other, and the private key is the one last generated or last set in the right size.", "quantifier": "all key entries loaded from JSON, all sequences of calls, all keys", "why_tests_cant": "the tests check fresh entries with right keys; that the cached pair stays in step with the fields over every order of calls, and what happens with keys of the wrong size, is not tried", "anchors": ["uid/keyentry.go:PublicKey32", "uid/keyentry.go:PrivateKey", "uid/keyentry.go:setPrivateKey", "uid/keyentry.go:InitDHKey", "uid/keyentry.go:initSigKey", "cipher/curve25519.go:SetPublicKey", "cipher/ed25519.go:SetPublicKey", "cipher/ed25519.go:SetPrivateKey"]}
{"id": "C205", "title": "The log is written to the file it should be written to", "statement": "Started with a known level, a prefix of five characters and a log directory, a program writes its log to the file in that directory which bears the name of the program; with an unknown level or another prefix it is refused.", "quantifier": "all levels, prefixes and paths", "why_tests_cant": "the only test of Init gives no directory; that the path comes back unchanged from being quoted as a Go string and read as XML depends on every character that can be in it", "anchors": ["log/log.go:Init", "ctrlengine/ctrlengine.go:prepare", "cmd/mutetui/mutetui.go:main"]}
{"id": "C206", "title": "A user without tokens is told the public key of the wallet", "statement": "If the wallet server does not know the user, the message of the command names the public key by which the wallet would be known to the server, and no other; all other errors are printed as they are, and the message never makes the program crash.", "quantifier": "all values stored as wallet key, all errors", "why_tests_cant": "the message is printed by no test, and whether the key in it is the one used depends on the size of a key that is never checked", "anchors": ["ctrlengine/ctrlengine.go:translateError", "ctrlengine/ctrlengine.go:startWallet", "ctrlengine/ctrlengine.go:decodeWalletKey", "serviceguard/client/clientlib.go:splitKey"]}
{"id": "C207", "title": "The completion offers the commands in the words that run them", "statement": "In the loop of mutectrl, for whatever was typed the completion offers exactly the commands that begin with it, each as the words that run it; a line taken from the completion runs that command.", "quantifier": "all trees of commands, all lines typed", "why_tests_cant": "the completer is used by no test, since the loop needs a terminal; whether all the words of a command are kept depends on how deep the commands are nested", "anchors": ["ctrlengine/ctrlengine.go:buildCmdList", "ctrlengine/ctrlengine.go:loop"]}
