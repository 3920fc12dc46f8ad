{
 "claims": [
  {
   "property": "C01",
   "status": "proved",
   "theorems": [
    "C01_fixed_size",
    "C01_never_fails_on_size",
    "C01_longer_refused"
   ],
   "note": "Every successful Encrypt writes 65536 characters, for all states of the store; the final length check never fails once the header has its one size (C03)."
  },
  {
   "property": "C02",
   "status": "proved",
   "theorems": [
    "C02_decrypt_inverts_encrypt",
    "C02_first_message"
   ],
   "note": "General form with the hypothesis of the property (the recipient's store yields the sender's message key), and for first contact without that hypothesis."
  },
  {
   "property": "C03",
   "status": "partial",
   "theorems": [
    "C03_packet_fixed_size",
    "C03_header_length",
    "C03_created_uid_accepted",
    "C03_escrow_uid_refused",
    "C03_refuted"
   ],
   "note": "Header packets that are produced always have 7194 bytes, and for UID messages as uid.Create makes them without escrow key every header has exactly 7152 bytes before encryption. The literal claim (same length for all accepted UID messages) is refuted: an escrow key makes the header 16 bytes longer and newHeaderPacket refuses it."
  },
  {
   "property": "C04",
   "status": "proved",
   "theorems": [
    "C04_outer_roundtrip",
    "C04_outer_size",
    "C04_inner_roundtrip",
    "C04_preheader_roundtrip",
    "C04_first_roundtrip",
    "C04_outer_accepts",
    "C04_inner_accepts",
    "C04_preheader_accepts",
    "C04_first_accepts",
    "C04_outer_bad_type",
    "C04_inner_bad_type",
    "C04_outer_truncated",
    "C04_inner_truncated",
    "C04_preheader_truncated",
    "C04_first_truncated",
    "C04_no_panic"
   ],
   "note": "Byte-level model of the three packet kinds and the first-header reader. Round trip with arbitrary trailing data, acceptance only of defined types and canonical bytes, every proper prefix rejected, no panic on any input."
  },
  {
   "property": "C05",
   "status": "proved",
   "theorems": [
    "C05_keys_agree",
    "C05_keys_present",
    "C05_root_hash_agree"
   ],
   "note": "For every Crypto instance, all key pairs, identities and previous root hashes: after both agreement functions succeed, any interleaving of refills (sender or recipient flavour, any batch size at least 1) and deletions on either side keeps the i-th keys equal. A batch of size 0 is never requested by the code."
  },
  {
   "property": "C06",
   "status": "proved",
   "theorems": [
    "C06_balanced",
    "C06_key_used_once",
    "C06_deletion_local"
   ],
   "note": "MemStore model; all histories of store operations. The keydb implementation of the same interface is treated separately under C15."
  },
  {
   "property": "C07",
   "status": "proved",
   "theorems": [
    "C07_replay_rejected"
   ],
   "note": "Any events (encrypt, decrypt of arbitrary bytes, clean-up) may happen between the two presentations."
  },
  {
   "property": "C08",
   "status": "proved",
   "theorems": [
    "C08_sender",
    "C08_recipient"
   ],
   "note": "Both agreement functions succeed exactly when the five public keys are pairwise different, for all inputs; a refusal leaves the store unchanged."
  },
  {
   "property": "C09",
   "status": "partial",
   "theorems": [
    "C09_refill_partial",
    "C09_bounded",
    "C09_refuted"
   ],
   "note": "The bound of 301 keys holds for every announced number. Sufficiency and refusal hold while the announced number plus the batch size fits in 64 bits; for 2^64-1 the rounding overflows, 34 keys are stored and the message still fails."
  },
  {
   "property": "C10",
   "status": "partial",
   "theorems": [
    "C10_refuted",
    "C10_wrong_mac_releases",
    "C10_success_authenticated_partial"
   ],
   "note": "False of the code: the content is written before HMAC and signature are checked. Proved for every message with a wrong HMAC that the whole content is released, and, for the partial form, that success implies an authentic body."
  },
  {
   "property": "C100",
   "status": "partial",
   "theorems": [
    "C100_refuted",
    "C100_crash",
    "C100_chunk",
    "C100_only_partial"
   ],
   "note": "Refuted: every composed message cut 4 bytes before its end crashes Parse (C100_crash). DecodeChunk never crashes; Parse only at a later part that cannot be read."
  },
  {
   "property": "C101",
   "status": "partial",
   "theorems": [
    "C101_refuted",
    "C101_dropped",
    "C101_prefix_partial"
   ],
   "note": "Refuted: cut after a boundary line, the message is accepted without the attachments that follow (C101_dropped). For every cut, what is accepted has the full header, subject and text and complete first attachments."
  },
  {
   "property": "C102",
   "status": "proved",
   "theorems": [
    "C102_private_key_deleted"
   ],
   "note": ""
  },
  {
   "property": "C103",
   "status": "proved",
   "theorems": [
    "C103_encrypt_counts",
    "C103_decrypt_keeps",
    "C103_decrypt_first"
   ],
   "note": ""
  },
  {
   "property": "C104",
   "status": "proved",
   "theorems": [
    "C104_encrypt_others",
    "C104_decrypt_others",
    "C104_unreadable"
   ],
   "note": ""
  },
  {
   "property": "C105",
   "status": "proved",
   "theorems": [
    "C105_simultaneous_start"
   ],
   "note": ""
  },
  {
   "property": "C106",
   "status": "proved",
   "theorems": [
    "C106_created_accepted",
    "C106_create_total",
    "C106_accepted_iff"
   ],
   "note": ""
  },
  {
   "property": "C107",
   "status": "proved",
   "theorems": [
    "C107_history_accepted",
    "C107_successor_spec"
   ],
   "note": ""
  },
  {
   "property": "C108",
   "status": "proved",
   "theorems": [
    "C108_own_usable",
    "C108_generated",
    "C108_updated",
    "C108_update_total",
    "C108_others_kept"
   ],
   "note": ""
  },
  {
   "property": "C109",
   "status": "partial",
   "theorems": [
    "C109_refuted",
    "C109_delete_undoes_update",
    "C109_left_iff",
    "C109_partial"
   ],
   "note": "refuted: delete removes one row; after a key change the old keys stay and become current again; holds for nyms with one row"
  },
  {
   "property": "C11",
   "status": "partial",
   "theorems": [
    "C11_refuted",
    "C11_no_key_consumed_partial",
    "C11_unopened_unchanged_partial",
    "C11_unknown_session_unchanged_partial"
   ],
   "note": "False of the code: a rejected message leaves a new session and session state. Proved: rejected messages never consume a message key, and unopened or unknown-session messages leave the store unchanged."
  },
  {
   "property": "C110",
   "status": "partial",
   "theorems": [
    "C110_refuted",
    "C110_stuck",
    "C110_partial"
   ],
   "note": "refuted: the reply is stored before it is verified and every later attempt is refused; holds if nothing was stored"
  },
  {
   "property": "C111",
   "status": "partial",
   "theorems": [
    "C111_refuted",
    "C111_any_message",
    "C111_partial"
   ],
   "note": "refuted: the decrypted message is compared with itself; what is checked instead is proved"
  },
  {
   "property": "C112",
   "status": "proved",
   "theorems": [
    "C112_round_trip"
   ],
   "note": ""
  },
  {
   "property": "C113",
   "status": "proved",
   "theorems": [
    "C113_keyinit_accepted",
    "C113_keyinit_total"
   ],
   "note": ""
  },
  {
   "property": "C114",
   "status": "proved",
   "theorems": [
    "C114_published_usable"
   ],
   "note": ""
  },
  {
   "property": "C115",
   "status": "partial",
   "theorems": [
    "C115_refuted",
    "C115_forged_used",
    "C115_partial",
    "C115_anchor_bound"
   ],
   "note": "refuted: Verify is never called and the anchor is encrypted under public data; what Verify would establish is proved"
  },
  {
   "property": "C116",
   "status": "partial",
   "theorems": [
    "C116_refuted",
    "C116_first_for_ever",
    "C116_partial"
   ],
   "note": "refuted: the first stored message is used for ever; holds for the first one"
  },
  {
   "property": "C117",
   "status": "partial",
   "theorems": [
    "C117_refuted",
    "C117_used_for_ever"
   ],
   "note": "refuted: no time is checked; the stored key is used for ever"
  },
  {
   "property": "C118",
   "status": "partial",
   "theorems": [
    "C118_refuted",
    "C118_panic_iff",
    "C118_partial"
   ],
   "note": "refuted: anchors shorter than 16 bytes panic; exact condition and absence otherwise proved"
  },
  {
   "property": "C119",
   "status": "partial",
   "theorems": [
    "C119_refuted",
    "C119_signature_keys",
    "C119_partial",
    "C119_spec"
   ],
   "note": "refuted for signature keys (typo ED25510); holds for DH keys; exact acceptance condition proved"
  },
  {
   "property": "C12",
   "status": "partial",
   "theorems": [
    "C12_refuted",
    "C12_outside_window_partial"
   ],
   "note": "False at one crash point (after the output, before the deletion of the message key); proved for every other crash point."
  },
  {
   "property": "C120",
   "status": "proved",
   "theorems": [
    "C120_round_trip",
    "C120_bound",
    "C120_nonces_differ"
   ],
   "note": ""
  },
  {
   "property": "C121",
   "status": "partial",
   "theorems": [
    "C121_refuted",
    "C121_generated_again",
    "C121_partial"
   ],
   "note": "refuted for nyms with a key change; holds for nyms not in the database"
  },
  {
   "property": "C122",
   "status": "proved",
   "theorems": [
    "C122_sender",
    "C122_recipient",
    "C122_state_name"
   ],
   "note": "the cut of chain keys to 32 bytes is not in the description"
  },
  {
   "property": "C123",
   "status": "proved",
   "theorems": [
    "C123_layout"
   ],
   "note": ""
  },
  {
   "property": "C124",
   "status": "proved",
   "theorems": [
    "C124_header",
    "C124_verified"
   ],
   "note": ""
  },
  {
   "property": "C125",
   "status": "partial",
   "theorems": [
    "C125_refuted",
    "C125_ignored",
    "C125_unreadable",
    "C125_locked_out"
   ],
   "note": "refuted: the recipient keeps its state and goes on using the lost session; proved for every message under an unknown session with a state that did not start from a KeyInit"
  },
  {
   "property": "C126",
   "status": "partial",
   "theorems": [
    "C126_refuted",
    "C126_not_looked_at"
   ],
   "note": "refuted: the field is not looked at"
  },
  {
   "property": "C127",
   "status": "proved",
   "theorems": [
    "C127_cleanup"
   ],
   "note": "for the memory store; the cryptengine version is not implemented and nothing calls either"
  },
  {
   "property": "C128",
   "status": "proved",
   "theorems": [
    "C128_fetch_result",
    "C128_fetch_interrupted",
    "C128_no_deadlock",
    "C128_fetch_ends",
    "C128_fetch_returns"
   ],
   "note": ""
  },
  {
   "property": "C129",
   "status": "partial",
   "theorems": [
    "C129_refuted",
    "C129_sender_partial"
   ],
   "note": "refuted: domains may contain tabs and line breaks; exactly the identities without tab, line break and final CR arrive unchanged"
  },
  {
   "property": "C13",
   "status": "partial",
   "theorems": [
    "C13_refuted",
    "C13_blocked_after_crash",
    "C13_recipient_refuted",
    "C13_recipient_panics",
    "C13_retry_partial",
    "C13_restart_partial"
   ],
   "note": "False between the deletion of the message key and the storing of the counter (all later encryptions fail) and, for the recipient, between storing session and session state (panic on every redelivery). Proved for the other crash points of Encrypt that state and key are found again; the remaining steps of Encrypt do not depend on the store."
  },
  {
   "property": "C130",
   "status": "partial",
   "theorems": [
    "C130_refuted",
    "C130_reply_address",
    "C130_address_partial",
    "C130_blocked"
   ],
   "note": "refuted: an empty address makes the status line unreadable and blocks sending; holds for non-empty base64 text"
  },
  {
   "property": "C131",
   "status": "partial",
   "theorems": [
    "C131_refuted",
    "C131_transport",
    "C131_delivered_partial",
    "C131_stuck"
   ],
   "note": "refuted: a message beyond C14's number of unanswered messages is fetched and its envelope opened, but it never becomes a message and blocks the queue (C131_stuck); transport for all inputs; delivery for messages in reach, a welcome sender and an identity that the status line can carry"
  },
  {
   "property": "C132",
   "status": "partial",
   "theorems": [
    "C132_scanner",
    "C132_overwritten",
    "C132_refuted",
    "C132_short_partial",
    "C132_empty"
   ],
   "note": "refuted: two different lines of the same length from 2048 to 4095 bytes, read in two pieces, are accepted, because the second is read over the first; no input gives an empty passphrase; holds for input up to 2048 bytes"
  },
  {
   "property": "C133",
   "status": "partial",
   "theorems": [
    "C133_overwritten",
    "C133_refuted",
    "C133_short_partial"
   ],
   "note": "refuted: with passphrases of 1365 to 2047 bytes read in one piece the old one is overwritten by the new one; holds for input up to 2048 bytes"
  },
  {
   "property": "C134",
   "status": "partial",
   "theorems": [
    "C134_short_partial",
    "C134_works_partial",
    "C134_long",
    "C134_recover",
    "C134_refuted"
   ],
   "note": "refuted: if the second step fails the databases have different passphrases, and long passphrases make it fail; a success, and the way back, are proved"
  },
  {
   "property": "C135",
   "status": "partial",
   "theorems": [
    "C135_remains",
    "C135_refuted",
    "C135_open_partial",
    "C135_open_long"
   ],
   "note": "refuted for creating and rekeying: the deferred bzero.Bytes gets the nil slices; holds for opening if the line fits into the first buffer"
  },
  {
   "property": "C136",
   "status": "partial",
   "theorems": [
    "C136_fresh_partial",
    "C136_refuted"
   ],
   "note": "refuted if the write of the time fails once: the configuration is then never fetched again; holds for all sequences if database writes succeed"
  },
  {
   "property": "C137",
   "status": "partial",
   "theorems": [
    "C137_start_partial",
    "C137_merge",
    "C137_refuted"
   ],
   "note": "refuted: an entry that another process removed stays in use; holds for a process that starts"
  },
  {
   "property": "C138",
   "status": "partial",
   "theorems": [
    "C138_monotone",
    "C138_signed",
    "C138_unusable_refuted"
   ],
   "note": "dates and signatures hold for all sequences; refuted: a configuration is stored before it is known to be usable"
  },
  {
   "property": "C139",
   "status": "partial",
   "theorems": [
    "C139_command_partial",
    "C139_lines_partial",
    "C139_refuted",
    "C139_fetchconf"
   ],
   "note": "refuted: the lines of a session started with --offline go online, and upkeep fetchconf ignores the option; holds for single commands and for sessions that repeat the option"
  },
  {
   "property": "C14",
   "status": "partial",
   "theorems": [
    "C14_refuted",
    "C14_decrypts_partial",
    "C14_first_partial",
    "C14_too_far_partial",
    "C14_sends_partial"
   ],
   "note": "Refuted: if one party writes 401 messages of a session without an answer, all delivered in order, message number 400 cannot be decrypted (default number of keys). Proved for all interleavings, session changes, reordering and losses: a message is decrypted exactly if its number is within the stored keys or the refill limit, in particular the first 301 of every session."
  },
  {
   "property": "C140",
   "status": "partial",
   "theorems": [
    "C140_crash",
    "C140_refuted",
    "C140_restart_partial"
   ],
   "note": "refuted: after no server answered the next fetch in the session crashes; a new process recovers"
  },
  {
   "property": "C141",
   "status": "partial",
   "theorems": [
    "C141_forced",
    "C141_advice",
    "C141_blocked",
    "C141_refuted"
   ],
   "note": "holds for dates that can be parsed; refuted for the last clause: without such a date every command except upkeep update is refused"
  },
  {
   "property": "C142",
   "status": "partial",
   "theorems": [
    "C142_key_partial",
    "C142_accepts",
    "C142_refuted"
   ],
   "note": "refuted: shorter and longer keys are padded or cut, and a short one crashes db create at its end"
  },
  {
   "property": "C143",
   "status": "partial",
   "theorems": [
    "C143_accepted",
    "C143_used_partial",
    "C143_refuted"
   ],
   "note": "refuted: the check is done on 64 bits and the values are cut to 32; holds for values below 2^31"
  },
  {
   "property": "C144",
   "status": "partial",
   "theorems": [
    "C144_file_partial",
    "C144_refuted"
   ],
   "note": "refuted if the file cannot be written once; holds for all sequences with working writes"
  },
  {
   "property": "C145",
   "status": "partial",
   "theorems": [
    "C145_success_partial",
    "C145_keys",
    "C145_stuck",
    "C145_refuted"
   ],
   "note": "refuted: if the configuration cannot be fetched the command can never be repeated; a success is proved for passphrases of up to about 1000 bytes"
  },
  {
   "property": "C146",
   "status": "partial",
   "theorems": [
    "C146_cookie_partial",
    "C146_exact",
    "C146_secret",
    "C146_empty",
    "C146_refuted"
   ],
   "note": "refuted: an empty cookie gets every page, also before any login; holds for all other values and all sequences"
  },
  {
   "property": "C147",
   "status": "partial",
   "theorems": [
    "C147_first_partial",
    "C147_before",
    "C147_restart",
    "C147_any",
    "C147_refuted",
    "C147_failed_refuted",
    "C147_missing"
   ],
   "note": "refuted: once the database is open any passphrase logs in and replaces the kept one; holds while the database is closed"
  },
  {
   "property": "C148",
   "status": "partial",
   "theorems": [
    "C148_typed_partial",
    "C148_members",
    "C148_noroot",
    "C148_wallet",
    "C148_refuted"
   ],
   "note": "refuted: members of other JSON types crash the client; holds for answers whose members have the expected types; for the wallet's GetToken exactly the crashing answers are given"
  },
  {
   "property": "C149",
   "status": "partial",
   "theorems": [
    "C149_signed",
    "C149_keys_partial",
    "C149_refuted"
   ],
   "note": "refuted: parts of the signed list of other lengths are padded or cut, the empty list is the zero key; the signature check and proper lists are proved"
  },
  {
   "property": "C15",
   "status": "partial",
   "theorems": [
    "C15_refuted",
    "C15_confusion_refuted",
    "C15_partial",
    "C15_extension_lost",
    "C15_session"
   ],
   "note": "False: AddSession files the keys of an extension under the last inserted row id instead of the session's. Proved when no session is stored twice; C15_extension_lost shows every key of an extension is unreadable in the usual case."
  },
  {
   "property": "C150",
   "status": "partial",
   "theorems": [
    "C150_signed_partial",
    "C150_never_removed",
    "C150_goonline",
    "C150_failed",
    "C150_restart",
    "C150_refuted"
   ],
   "note": "refuted: keys are never removed and old lists are accepted; each trusted key stood in some list signed by the trust root, for all histories"
  },
  {
   "property": "C151",
   "status": "partial",
   "theorems": [
    "C151_chain_partial",
    "C151_refuted"
   ],
   "note": "refuted: online the lookup server may answer with another key, which is then used; everything else, and the named key when offline, is proved for all histories"
  },
  {
   "property": "C152",
   "status": "partial",
   "theorems": [
    "C152_received",
    "C152_refused",
    "C152_once",
    "C152_ownerless",
    "C152_not_reissued",
    "C152_refuted"
   ],
   "note": "refuted: a token without owner crashes the client, a removed token is received again, received tokens can never be reissued; the conditions of a success are proved"
  },
  {
   "property": "C153",
   "status": "partial",
   "theorems": [
    "C153_reissued_partial",
    "C153_signature",
    "C153_refuted"
   ],
   "note": "refuted: signatures are not checked when storing; usage, expiry, owner and the replacement of the old token are proved"
  },
  {
   "property": "C154",
   "status": "partial",
   "theorems": [
    "C154_request_partial",
    "C154_ownerless",
    "C154_refuted"
   ],
   "note": "refuted for tokens without owner; proved for tokens with an owner"
  },
  {
   "property": "C155",
   "status": "partial",
   "theorems": [
    "C155_exclusive",
    "C155_one_partial",
    "C155_stop_never",
    "C155_second_runner_blocks",
    "C155_refuted"
   ],
   "note": "refuted: StopRunner never returns, a second Runner blocks the lock for ever; mutual exclusion and one runner are proved for all interleavings"
  },
  {
   "property": "C156",
   "status": "proved",
   "theorems": [
    "C156_injective",
    "C156_label"
   ],
   "note": ""
  },
  {
   "property": "C157",
   "status": "proved",
   "theorems": [
    "C157_new"
   ],
   "note": ""
  },
  {
   "property": "C158",
   "status": "partial",
   "theorems": [
    "C158_possible_partial",
    "C158_taken",
    "C158_refuted"
   ],
   "note": "refuted: after a lost answer of the key server or a refused key init the ID is registered and can never be created; proved possible while the ID is not registered"
  },
  {
   "property": "C159",
   "status": "partial",
   "theorems": [
    "C159_never",
    "C159_refuted"
   ],
   "note": "refuted: no error of the registration ever reaches the user (the private UID is deleted and the key init then fails with \"no privkey for nym found\"), and a Message token stays locked"
  },
  {
   "property": "C16",
   "status": "proved",
   "theorems": [
    "C16_base64_lossless",
    "C16_base64_linebreaks",
    "C16_base64_length",
    "C16_base64_rfc4648",
    "C16_hex_lossless",
    "C16_hex_digits"
   ],
   "note": ""
  },
  {
   "property": "C160",
   "status": "partial",
   "theorems": [
    "C160_step",
    "C160_partial",
    "C160_refuted"
   ],
   "note": "refuted by deleting the active nym; proved for all histories in which the active nym is not deleted"
  },
  {
   "property": "C161",
   "status": "partial",
   "theorems": [
    "C161_removed",
    "C161_refuted"
   ],
   "note": "refuted: if mutecrypt fails the keys and accounts stay and the command cannot be repeated, and keys of earlier failed uid new stay; what a successful uid delete removes is proved"
  },
  {
   "property": "C162",
   "status": "partial",
   "theorems": [
    "C162_partial",
    "C162_stuck",
    "C162_refuted"
   ],
   "note": "refuted: if mutecrypt dies the UID and Message tokens are deleted unused; a token spent without answer blocks uid new (C162_stuck); no token is lost if mutecrypt does not die"
  },
  {
   "property": "C163",
   "status": "partial",
   "theorems": [
    "C163_partial",
    "C163_refuted"
   ],
   "note": "refuted by 51 messages with the default settings: all leave over the in-memory store, 50 over the key database; the same answers are proved for all sequences of calls that do not extend a session or store a session key twice"
  },
  {
   "property": "C164",
   "status": "proved",
   "theorems": [
    "C164_limit",
    "C164_blocked"
   ],
   "note": "at most n messages per session, failing calls write nothing, and all calls fail once the keys are used up; a first proposal of a next session made only after the n-th message is excluded by hypothesis"
  },
  {
   "property": "C165",
   "status": "proved",
   "theorems": [
    "C165_available",
    "C165_hole"
   ],
   "note": "the signed list always names a usable key if keys live at least as long as the frequency plus the distance of two turns; otherwise there is a hole with no key (C165_hole); clock monotonic, JSON and int64 arithmetic simplified"
  },
  {
   "property": "C166",
   "status": "partial",
   "theorems": [
    "C166_refuted",
    "C166_files",
    "C166_never",
    "C166_memory_partial",
    "C166_unused_partial"
   ],
   "note": "refuted: every saved private key stays in its file (C166_files), and no key is removed from memory when the turns are further apart than the frequency (C166_never); proved for the memory otherwise"
  },
  {
   "property": "C167",
   "status": "partial",
   "theorems": [
    "C167_restart",
    "C167_unsaved_refuted"
   ],
   "note": "proved if every write succeeds; refuted for a write that fails, since its error is ignored"
  },
  {
   "property": "C168",
   "status": "proved",
   "theorems": [
    "C168_boundary"
   ],
   "note": "minimum and maximum for all orders of map iteration"
  },
  {
   "property": "C169",
   "status": "partial",
   "theorems": [
    "C169_partial",
    "C169_help_refuted",
    "C169_text_refuted"
   ],
   "note": "proved for identities without white space and error texts whose first line is not READY.; refuted for the identity \"bob@x --help\", which may arrive as sender of a message (nothing is looked up, the contact is added and white-listed), and for a server error text with the expected lines"
  },
  {
   "property": "C17",
   "status": "proved",
   "theorems": [
    "C17_uint64",
    "C17_uint64_bytes",
    "C17_uint16",
    "C17_uint16_bytes",
    "C17_uint8",
    "C17_little_endian"
   ],
   "note": ""
  },
  {
   "property": "C170",
   "status": "partial",
   "theorems": [
    "C170_partial",
    "C170_refuted"
   ],
   "note": "proved under the hypotheses of C169_partial; refuted for an identity with a newline, which MapPlus accepts"
  },
  {
   "property": "C171",
   "status": "partial",
   "theorems": [
    "C171_partial",
    "C171_alone_partial",
    "C171_refuted"
   ],
   "note": "proved once the callback is registered; refuted for a signal between signal.Notify and the registration: handler and main wait for each other for ever"
  },
  {
   "property": "C172",
   "status": "partial",
   "theorems": [
    "C172_partial",
    "C172_use_refuted",
    "C172_close_refuted"
   ],
   "note": "proved without a signal; refuted: the engine uses its database after the handler set it to nil, and two goroutines run Close at the same time"
  },
  {
   "property": "C173",
   "status": "partial",
   "theorems": [
    "C173_status",
    "C173_closed_partial",
    "C173_open_refuted"
   ],
   "note": "the status is proved for all interleavings; the closing without a signal, refuted with one (a database opened after Close stays open)"
  },
  {
   "property": "C174",
   "status": "partial",
   "theorems": [
    "C174_partial",
    "C174_delete",
    "C174_name_refuted",
    "C174_subject_refuted"
   ],
   "note": "proved for every message text if the names have no line ends; refuted for a contact name with line ends (adds fields) and for a first line that looks like an encoded word"
  },
  {
   "property": "C175",
   "status": "proved",
   "theorems": [
    "C175_add",
    "C175_accepts"
   ],
   "note": ""
  },
  {
   "property": "C176",
   "status": "partial",
   "theorems": [
    "C176_mail",
    "C176_view_partial",
    "C176_encoded_refuted",
    "C176_name_refuted"
   ],
   "note": "proved which field is taken and that a shown message with a plain first line is taken back; refuted: an encoded subject is not decoded, and a contact shown with its name cannot be answered"
  },
  {
   "property": "C177",
   "status": "partial",
   "theorems": [
    "C177_partial",
    "C177_refuted"
   ],
   "note": "proved for addresses without tab and line end; refuted for a domain with a line end"
  },
  {
   "property": "C178",
   "status": "partial",
   "theorems": [
    "C178_partial",
    "C178_refuted"
   ],
   "note": "Full hash as release.Commit (missing: other names of a commit, for which it is false: C178_refuted)."
  },
  {
   "property": "C179",
   "status": "partial",
   "theorems": [
    "C179_untouched",
    "C179_once_partial",
    "C179_once_refuted"
   ],
   "note": "First part in full; second part for a full hash, refuted for tags."
  },
  {
   "property": "C18",
   "status": "proved",
   "theorems": [
    "C18_decimal_is_decimal",
    "C18_digit_count"
   ],
   "note": ""
  },
  {
   "property": "C180",
   "status": "partial",
   "theorems": [
    "C180_partial",
    "C180_untouched",
    "C180_refuted"
   ],
   "note": "As long as mutectrl was not replaced (missing: a last go install that fails half-way, for which it is false: C180_refuted)."
  },
  {
   "property": "C181",
   "status": "partial",
   "theorems": [
    "C181_partial",
    "C181_torn_refuted",
    "C181_foreign_refuted",
    "C181_table_refuted"
   ],
   "note": "Any chain of storages, failures and restarts, with one directory or one table that never refuses. Missing (and refuted): key files written in part, foreign files, tables that refuse."
  },
  {
   "property": "C182",
   "status": "partial",
   "theorems": [
    "C182_partial",
    "C182_refuted"
   ],
   "note": "Storages that hold keys of the history only (missing: other contents, for which it is false: C182_refuted)."
  },
  {
   "property": "C183",
   "status": "proved",
   "theorems": [
    "C183_sound",
    "C183_reported"
   ],
   "note": "For all contents of storages."
  },
  {
   "property": "C184",
   "status": "partial",
   "theorems": [
    "C184_home_partial",
    "C184_host_refuted",
    "C184_port_refuted"
   ],
   "note": "refuted: caps get or caps show with a host redirects all later requests about the domain, and the port of caps get is ignored without a host; holds if no command names another host or port."
  },
  {
   "property": "C185",
   "status": "partial",
   "theorems": [
    "C185_announced",
    "C185_crash",
    "C185_crash_refuted"
   ],
   "note": "The first part is proved; refuted: a server that announces no signature keys crashes the command, and this is the only crash."
  },
  {
   "property": "C186",
   "status": "partial",
   "theorems": [
    "C186_get",
    "C186_kept",
    "C186_show_refuted"
   ],
   "note": "The part on caps get is proved; refuted: caps show shows what is cached from another host."
  },
  {
   "property": "C187",
   "status": "partial",
   "theorems": [
    "C187_partial",
    "C187_refuted"
   ],
   "note": "refuted: an address with another scheme in the configuration is used without encryption; all other requests use https and the certificate."
  },
  {
   "property": "C188",
   "status": "partial",
   "theorems": [
    "C188_partial",
    "C188_status",
    "C188_code",
    "C188_release",
    "C188_mode_refuted"
   ],
   "note": "proved for all sequences of complete runs in one mode; refuted: after a run without -r the run with -r for the same commit keeps the Go code (cut writes: C190)."
  },
  {
   "property": "C189",
   "status": "partial",
   "theorems": [
    "C189_partial",
    "C189_other",
    "C189_refuted"
   ],
   "note": "proved for the Go file; refuted for the release file, which is written at each run."
  },
  {
   "property": "C19",
   "status": "proved",
   "theorems": [
    "C19_padding_length",
    "C19_padding_succeeds"
   ],
   "note": "AES-CTR key stream is a parameter"
  },
  {
   "property": "C190",
   "status": "partial",
   "theorems": [
    "C190_partial",
    "C190_refuted"
   ],
   "note": "the prefixes that are repaired are exactly those that end before the last digit of the commit; refuted: a run on a full disk ends with status 0 and the file is never repaired."
  },
  {
   "property": "C191",
   "status": "partial",
   "theorems": [
    "C191_partial",
    "C191_id",
    "C191_refuted"
   ],
   "note": "proved for answers with something after the word; refuted: the answer REVOKED alone is a protocol error."
  },
  {
   "property": "C192",
   "status": "partial",
   "theorems": [
    "C192_partial",
    "C192_equal",
    "C192_any",
    "C192_none",
    "C192_primary_refuted",
    "C192_local_refuted"
   ],
   "note": "proved if all mail hosts have the same preference; refuted: a backup host may be chosen, and an at sign in the local part changes the domain."
  },
  {
   "property": "C193",
   "status": "proved",
   "theorems": [
    "C193_delete",
    "C193_nomatch",
    "C193_expiry",
    "C193_only"
   ],
   "note": ""
  },
  {
   "property": "C194",
   "status": "partial",
   "theorems": [
    "C194_partial",
    "C194_error",
    "C194_refuted"
   ],
   "note": "proved but for the time in nanoseconds, which is off by at most 128 ns until 2043; refuted for two messages that come out with the same time."
  },
  {
   "property": "C195",
   "status": "partial",
   "theorems": [
    "C195_seen",
    "C195_same",
    "C195_blocks",
    "C195_privkey",
    "C195_commands_partial",
    "C195_one_partial",
    "C195_refuted"
   ],
   "note": "refuted for a passphrase that ends in CR: the key database gets the passphrase without it; every command opens both databases all the same, for passphrases of at most 681 bytes. The private key is handed over exactly."
  },
  {
   "property": "C196",
   "status": "partial",
   "theorems": [
    "C196_sound",
    "C196_found",
    "C196_kept_partial",
    "C196_refuted",
    "C196_second_refuted",
    "C196_hidden_refuted"
   ],
   "note": "genuine: proved for all histories. Kept: proved if the first storage works, for storages that were empty; refuted if the storage refuses (the error is dropped), in the second of expiry, and if a table holds a row that is no key."
  },
  {
   "property": "C197",
   "status": "partial",
   "theorems": [
    "C197_same",
    "C197_prefix",
    "C197_complete",
    "C197_kept",
    "C197_deleted",
    "C197_valid",
    "C197_refuted"
   ],
   "note": "following, growing, completeness if the database takes the entries, deletion, validity: proved. That success means a complete copy is refuted for a database that refuses an entry (the error is dropped)."
  },
  {
   "property": "C198",
   "status": "partial",
   "theorems": [
    "C198_partial",
    "C198_numbers",
    "C198_streams",
    "C198_lines_partial",
    "C198_lines_refuted",
    "C198_refuted",
    "C198_vacuum",
    "C198_vacuum_plain"
   ],
   "note": "Every process except db vacuum is proved to be understood, for all values; lines for the loop of mutecrypt only for values without white space. False for db vacuum: mutectrl hands on --auto-vacuum, an option that is commented out in mutecrypt, so the command always fails and the key database is never rebuilt (C198_refuted, C198_vacuum)."
  },
  {
   "property": "C199",
   "status": "proved",
   "theorems": [
    "C199",
    "C199_panic"
   ],
   "note": ""
  },
  {
   "property": "C20",
   "status": "proved",
   "theorems": [
    "C20_msgid_names_sender",
    "C20_msgid_generated"
   ],
   "note": ""
  },
  {
   "property": "C200",
   "status": "partial",
   "theorems": [
    "C200_answer",
    "C200_partial",
    "C200_refuted"
   ],
   "note": "The answers are proved right for all states. It does not always answer: if exactly one of two otherwise equal states has a key for the next session, a nil pointer is dereferenced (C200_refuted). The function is only used in tests."
  },
  {
   "property": "C201",
   "status": "proved",
   "theorems": [
    "C201",
    "C201_kept"
   ],
   "note": ""
  },
  {
   "property": "C202",
   "status": "partial",
   "theorems": [
    "C202_partial",
    "C202_half",
    "C202_hidden",
    "C202_keys",
    "C202_reach",
    "C202_pages",
    "C202_others",
    "C202_refuted"
   ],
   "note": "Proved except for one place: in the second column of a wide character the cursor is never shown (C202_half), and one press of the right arrow key moves it there (C202_refuted). Scrolling and clipping by tcell are not modelled."
  },
  {
   "property": "C203",
   "status": "partial",
   "theorems": [
    "C203_status",
    "C203_unknown",
    "C203_data",
    "C203_partial",
    "C203_reopened",
    "C203_incremental",
    "C203_command",
    "C203_refuted"
   ],
   "note": "Proved for connections on which no VACUUM failed since they were opened. After one that failed the mode asked for stays pending, and the next Vacuum for the present mode sets it (C203_refuted). How many pages the driver frees in one call, and the behaviour of the SQLite statements, are assumptions of the model."
  },
  {
   "property": "C204",
   "status": "partial",
   "theorems": [
    "C204_public",
    "C204_dh_partial",
    "C204_generated",
    "C204_private",
    "C204_refines",
    "C204_refuted",
    "C204_failed_refuted"
   ],
   "note": "Proved for all sequences of calls whose key generation succeeds, except that a signature entry whose PUBKEY has the wrong size hands out 32 zero bytes (C204_refuted). After generating a key failed, an entry that had one panics (C204_failed_refuted)."
  },
  {
   "property": "C205",
   "status": "partial",
   "theorems": [
    "C205_partial",
    "C205_backslash",
    "C205_less",
    "C205_ampersand",
    "C205_refused",
    "C205_none",
    "C205_refuted",
    "C205_other_refuted"
   ],
   "note": "Proved for printable ASCII paths without quotation marks, backslashes, ampersands and less-than signs. Backslashes are doubled, a less-than sign or an ampersand that starts no entity keeps the program from starting (C205_refuted), and an entity in the path names another file (C205_other_refuted). The reading of the XML text is a model of encoding/xml."
  },
  {
   "property": "C206",
   "status": "partial",
   "theorems": [
    "C206_partial",
    "C206_other",
    "C206_crash",
    "C206_nokey",
    "C206_refuted",
    "C206_empty_refuted"
   ],
   "note": "The key named is the one used exactly for private keys of 64 bytes. A longer key, which db create accepts, gives another public key than the one used (C206_refuted); with less than 32 bytes, or nothing stored, the program crashes (C206_empty_refuted)."
  },
  {
   "property": "C207",
   "status": "partial",
   "theorems": [
    "C207_offered",
    "C207_partial",
    "C207_run_partial",
    "C207_all_partial",
    "C207_refuted"
   ],
   "note": "Proved for trees of two levels, which is what mutectrl has. On a third level only the last two words are kept, and the line offered runs nothing (C207_refuted); what is offered in general is in C207_offered."
  },
  {
   "property": "C21",
   "status": "proved",
   "theorems": [
    "C21_chunks",
    "C21_envelope"
   ],
   "note": "C21_chunks: payload and numbering. C21_envelope: decoding the MIME messages of all chunks gives header, piece, count and text; for printable message IDs and if no chosen boundary occurs in the message."
  },
  {
   "property": "C22",
   "status": "partial",
   "theorems": [
    "C22_refuted",
    "C22_roundtrip_partial",
    "C22_no_subject"
   ],
   "note": "Refuted: texts with an empty first line cannot be parsed (C22_no_subject: none of them), a leading blank or \"=?\" in the first line changes the subject. Proved for all other texts, headers, orders of header fields and boundaries."
  },
  {
   "property": "C23",
   "status": "proved",
   "theorems": [
    "C23_mail_roundtrip",
    "C23_mail_lines"
   ],
   "note": "sender, receiver and date without line breaks"
  },
  {
   "property": "C24",
   "status": "partial",
   "theorems": [
    "C24_mapped_form",
    "C24_look_alikes",
    "C24_idempotent_partial",
    "C24_idempotent_ascii",
    "C24_idempotent_refuted"
   ],
   "note": "idempotence is false for non-ASCII domains whose lower-case form is longer than the limit"
  },
  {
   "property": "C25",
   "status": "proved",
   "theorems": [
    "C25_last_write_wins"
   ],
   "note": "keydb/keyvalue.go is the same code on another database."
  },
  {
   "property": "C26",
   "status": "partial",
   "theorems": [
    "C26_refuted",
    "C26_one_state_partial",
    "C26_one_entry_partial",
    "C26_submit",
    "C26_not_dropped",
    "C26_kept_forever"
   ],
   "note": "False of the raw interface (AddOutQueue accepts a message that is already queued). Proved for all histories in which AddOutQueue is called, as msgSend does, for the message GetUndeliveredMessage returns; submission and non-loss hold for all histories."
  },
  {
   "property": "C27",
   "status": "proved",
   "theorems": [
    "C27_out_first",
    "C27_out_order",
    "C27_out_content",
    "C27_in_first",
    "C27_in_order"
   ],
   "note": "All histories of database operations."
  },
  {
   "property": "C28",
   "status": "proved",
   "theorems": [
    "C28_exactly_once",
    "C28_discard"
   ],
   "note": "Atomicity: the operation is one SQLite transaction."
  },
  {
   "property": "C29",
   "status": "partial",
   "theorems": [
    "C29_refuted",
    "C29_writes_partial",
    "C29_reads",
    "C29_delete",
    "C29_fresh_user"
   ],
   "note": "False of the raw interface (AddOutQueue does not check the owner of the message). Proved for all histories of permitted operations; operations that name a row number act for the owner of the row."
  },
  {
   "property": "C30",
   "status": "proved",
   "theorems": [
    "C30_last_decision",
    "C30_lists",
    "C30_commands"
   ],
   "note": "At the level of the database and of the commands."
  },
  {
   "property": "C31",
   "status": "partial",
   "theorems": [
    "C31_refuted",
    "C31_add_loses",
    "C31_edit_partial",
    "C31_known_partial"
   ],
   "note": "False: adding a contact never keeps the entered spelling and full name. Proved for editing; blocking loses the spelling."
  },
  {
   "property": "C32",
   "status": "proved",
   "theorems": [
    "C32_cache",
    "C32_since",
    "C32_prune_unknown"
   ],
   "note": ""
  },
  {
   "property": "C33",
   "status": "partial",
   "theorems": [
    "C33_refuted",
    "C33_lost",
    "C33_complete_partial"
   ],
   "note": "False: an interruption between storing the message ID and the message loses the message. Proved for interruptions elsewhere."
  },
  {
   "property": "C34",
   "status": "partial",
   "theorems": [
    "C34_refuted",
    "C34_progress_partial"
   ],
   "note": "False: an envelope that cannot be decoded blocks the queue for ever. Proved if all envelopes open and all decrypted messages can be filed."
  },
  {
   "property": "C35",
   "status": "partial",
   "theorems": [
    "C35_not_lost",
    "C35_delivered",
    "C35_at_most_once",
    "C35_quit_refuted"
   ],
   "note": "Proved, except that a message may be handed over twice after a failed QUIT, which is reported as not delivered."
  },
  {
   "property": "C36",
   "status": "partial",
   "theorems": [
    "C36_blocked",
    "C36_visible",
    "C36_refuted"
   ],
   "note": "Blocked senders and visibility proved; false that unknown senders are gray-listed, they become white-listed."
  },
  {
   "property": "C37",
   "status": "proved",
   "theorems": [
    "C37_due",
    "C37_record",
    "C37_spacing",
    "C37_failed_not_recorded",
    "C37_recorded"
   ],
   "note": ""
  },
  {
   "property": "C38",
   "status": "proved",
   "theorems": [
    "C38_split_spec",
    "C38_split_ok",
    "C38_round_trip"
   ],
   "note": ""
  },
  {
   "property": "C39",
   "status": "proved",
   "theorems": [
    "C39_tamper_evident",
    "C39_links",
    "C39_own_entries"
   ],
   "note": "Collision freeness of SHA256 is assumed only for the byte strings hashed in the two chains."
  },
  {
   "property": "C40",
   "status": "partial",
   "theorems": [
    "C40_refuted",
    "C40_error_refuted",
    "C40_partial",
    "C40_known_unchanged"
   ],
   "note": "False: a later first position leaves a gap, and database errors are reported as success. Proved without those; known entries never change."
  },
  {
   "property": "C41",
   "status": "partial",
   "theorems": [
    "C41_refuted",
    "C41_search_bound",
    "C41_lookup_bound",
    "C41_partial"
   ],
   "note": "False: the identity in the message is never compared, and a first key server message needs no server signature, so the key server of one domain can install signature keys for another. Proved: what every stored message is bound to."
  },
  {
   "property": "C42",
   "status": "proved",
   "theorems": [
    "C42_public",
    "C42_private",
    "C42_private_found"
   ],
   "note": ""
  },
  {
   "property": "C43",
   "status": "partial",
   "theorems": [
    "C43_codec_refuted",
    "C43_empty_token_refuted",
    "C43_codec_partial"
   ],
   "note": "False for some headers (numbers beyond 32 bits, tokens that look like the absent marker, oversized). Proved for all others."
  },
  {
   "property": "C44",
   "status": "partial",
   "theorems": [
    "C44_nopanic_refuted",
    "C44_decoder_partial",
    "C44_receive_refuted",
    "C44_receive_partial",
    "C44_client_partial"
   ],
   "note": "False: short input panics. Proved: the decoder and the receive functions panic in no other case."
  },
  {
   "property": "C45",
   "status": "proved",
   "theorems": [
    "C45_recover",
    "C45_tamper"
   ],
   "note": ""
  },
  {
   "property": "C46",
   "status": "proved",
   "theorems": [
    "C46_mix_outlives",
    "C46_expired_refused",
    "C46_key_kept"
   ],
   "note": ""
  },
  {
   "property": "C47",
   "status": "partial",
   "theorems": [
    "C47_ambiguous_refuted",
    "C47_uniform_partial"
   ],
   "note": "False: the statement image concatenates variable length fields. Proved when the lengths of the fields agree."
  },
  {
   "property": "C48",
   "status": "partial",
   "theorems": [
    "C48_end_to_end",
    "C48_other_domain_refuted",
    "C48_domain_partial"
   ],
   "note": "Delivery through one mix proved; the mailbox of another domain is not respected."
  },
  {
   "property": "C49",
   "status": "partial",
   "theorems": [
    "C49_settled_partial",
    "C49_retry",
    "C49_codes",
    "C49_reload_partial",
    "C49_quit_refuted",
    "C49_cacert_refuted",
    "C49_error_text_refuted"
   ],
   "note": "Proved for the outcome Deliver reports, over all runs with storing and reloading. False: an error after the server took the message leads to a second delivery; storing loses messages without CA certificate and with error texts that are not UTF-8."
  },
  {
   "property": "C50",
   "status": "proved",
   "theorems": [
    "C50_covers",
    "C50_order",
    "C50_accepted"
   ],
   "note": "Equal signed images of maps with keys and values below 2^32 bytes give equal entries and dates, or a SHA-512 collision of the two images; enumeration order is irrelevant; what is signed is accepted."
  },
  {
   "property": "C51",
   "status": "proved",
   "theorems": [
    "C51_monotone"
   ],
   "note": "Over all sequences of updates; also the clock window and the signature of each accepted map."
  },
  {
   "property": "C52",
   "status": "partial",
   "theorems": [
    "C52_refuted",
    "C52_stuck",
    "C52_ca_refuted",
    "C52_map_partial",
    "C52_works_partial"
   ],
   "note": "Refuted: after one update in which no server answered every later update crashes; a failed CA fetch drops the CA certificate. The map and date in use stay."
  },
  {
   "property": "C53",
   "status": "proved",
   "theorems": [
    "C53_order",
    "C53_configured"
   ],
   "note": "For all sorted permutations of the list and all random permutations; also from the configured text."
  },
  {
   "property": "C54",
   "status": "proved",
   "theorems": [
    "C54_codec",
    "C54_sound",
    "C54_tamper"
   ],
   "note": ""
  },
  {
   "property": "C55",
   "status": "partial",
   "theorems": [
    "C55_short_refuted",
    "C55_fetch_refuted",
    "C55_classify_partial"
   ],
   "note": "False: errors shorter than eleven bytes panic. Proved for all others."
  },
  {
   "property": "C56",
   "status": "partial",
   "theorems": [
    "C56_refuted",
    "C56_ids_refuted",
    "C56_precedence_refuted",
    "C56_exclusive_partial"
   ],
   "note": "Refuted: ReissueToken goes ahead when LockToken fails (-1 is not 0) and releases the holder's lock; two callers drawing the same clock-seeded lock ID both succeed; the lock query matches any row with the drawn ID. Exclusive until released, deleted or cleaned when lock IDs are fresh."
  },
  {
   "property": "C57",
   "status": "partial",
   "theorems": [
    "C57_refuted",
    "C57_all_released",
    "C57_stale_partial"
   ],
   "note": "Refuted: the limit is now plus the maximum age, so every lock set up to now is released. Stale locks are released and nothing but lock columns changes."
  },
  {
   "property": "C58",
   "status": "partial",
   "theorems": [
    "C58_refuted",
    "C58_lost",
    "C58_running_partial",
    "C58_codec_partial"
   ],
   "note": "Refuted: readCache scans one destination of a two-column query, so nothing stored is ever found after reopening. The codec and the cache of a running store are right."
  },
  {
   "property": "C59",
   "status": "proved",
   "theorems": [
    "C59_balance",
    "C59_own"
   ],
   "note": "For every well-formed wallet, hence every history (good_run): repeated GetAndLockToken with unused lock IDs yields exactly balance many distinct fitting tokens and then ErrNoToken."
  },
  {
   "property": "C60",
   "status": "partial",
   "theorems": [
    "C60_refuted",
    "C60_error_refuted",
    "C60_state_refuted",
    "C60_unanswered_partial",
    "C60_success_partial"
   ],
   "note": "Refuted: the old token is deleted before the new one is unblinded and stored. Kept until the issuer answers; a successful reissue holds the new token."
  },
  {
   "property": "C61",
   "status": "proved",
   "theorems": [
    "C61_pool",
    "C61_lookup"
   ],
   "note": "Over all sequences of trust, load, lookup, generate and directory load operations; keys generated by the pool itself are signed by its own key."
  },
  {
   "property": "C62",
   "status": "partial",
   "theorems": [
    "C62_refuted",
    "C62_late_partial"
   ],
   "note": "Refuted: a key stays current until half a lifetime after its expiry. It is never older than that and new keys are fresh, signed and in the pool."
  },
  {
   "property": "C63",
   "status": "partial",
   "theorems": [
    "C63_refuted",
    "C63_width_partial"
   ],
   "note": "Refuted: coordinates are concatenated without lengths. Holds if coordinate lengths agree."
  },
  {
   "property": "C64",
   "status": "proved",
   "theorems": [
    "C64_fetch",
    "C64_meets",
    "C64_hysteresis"
   ],
   "note": "meetTarget with the map given as a list in iteration order."
  },
  {
   "property": "C65",
   "status": "proved",
   "theorems": [
    "C65_roundtrip",
    "C65_generate",
    "C65_noclobber",
    "C65_works"
   ],
   "note": "Any cipher whose decryption inverts encryption, any key derivation function; a write never replaces an existing file and a successful write reads back the same key."
  },
  {
   "property": "C66",
   "status": "partial",
   "theorems": [
    "C66_refuted",
    "C66_accepts",
    "C66_short_partial",
    "C66_never_panics"
   ],
   "note": "Refuted: os.File.Read short reads are accepted, so every file of 41 bytes or more (88 are written) is accepted and a wrong key is returned. Files of at most 40 bytes are refused, and reading never panics."
  },
  {
   "property": "C67",
   "status": "proved",
   "theorems": [
    "C67_crash",
    "C67_database",
    "C67_repeat"
   ],
   "note": "Every intermediate state of replaceKeyfile/Rekey, including every byte prefix of the temporary file and failing create, write, random source and rename."
  },
  {
   "property": "C68",
   "status": "partial",
   "theorems": [
    "C68_lines",
    "C68_loads",
    "C68_write_partial",
    "C68_refuted"
   ],
   "note": "Cell, character and rune lookups proved for all texts and width functions of at most 2. Writing back is the identity exactly on valid UTF-8 in which no line starts with a combining rune (theorem is an equivalence); the full claim is refuted by a line starting with a tab."
  },
  {
   "property": "C69",
   "status": "proved",
   "theorems": [
    "C69_row",
    "C69_below",
    "C69_half"
   ],
   "note": "Draw's column loop ends within one step per column and sets every glyph at its first cell and blanks elsewhere; C69_half shows the loop would not end from the second half of a wide character. tcell's ViewPort is not modelled."
  },
  {
   "property": "C70",
   "status": "partial",
   "theorems": [
    "C70_refuted",
    "C70_moved_partial",
    "C70_growing_partial"
   ],
   "note": "Refuted: SetContent with a shorter text leaves the cursor outside. After any movement, and after content changes that do not shrink the text, the cursor is inside."
  },
  {
   "property": "C71",
   "status": "partial",
   "theorems": [
    "C71_wrong_server_refuted",
    "C71_default_partial"
   ],
   "note": "False: the default server is always used. Proved: right exactly for that server."
  },
  {
   "property": "C72",
   "status": "partial",
   "theorems": [
    "C72_refuted",
    "C72_success_partial",
    "C72_repair_partial"
   ],
   "note": "Refuted: settings are half applied. Success exactly on complete configurations; a later complete one repairs the settings."
  },
  {
   "property": "C73",
   "status": "partial",
   "theorems": [
    "C73_refuted",
    "C73_signature_partial"
   ],
   "note": "False of the code: the UID message in the header is not checked against anything. Proved: the signature verifies under the key carried by the message itself."
  },
  {
   "property": "C74",
   "status": "partial",
   "theorems": [
    "C74_refuted",
    "C13_recipient_refuted",
    "C74_unopened_no_panic_partial"
   ],
   "note": "False of the code (signed message with unusable signature key; store left behind by a crash). Proved: messages that no identity opens give an error, never a panic."
  },
  {
   "property": "C75",
   "status": "partial",
   "theorems": [
    "C75_refuted",
    "C75_deadlock_partial",
    "C75_agree_partial"
   ],
   "note": "Refuted: if both parties propose before they see the other's proposal, both wait in the present session for ever, whatever is sent (reset messages excepted), lost or received later. Proved in general (C75_deadlock_partial); a proposal by one party alone leads both to the proposed session (C75_agree_partial)."
  },
  {
   "property": "C76",
   "status": "proved",
   "theorems": [
    "C76_state_last_write"
   ],
   "note": ""
  },
  {
   "property": "C77",
   "status": "partial",
   "theorems": [
    "C77_refuted",
    "C77_partial"
   ],
   "note": "False: a key stored again after its private half was deleted keeps reading as deleted. Proved when no key is stored twice."
  },
  {
   "property": "C78",
   "status": "partial",
   "theorems": [
    "C78_sync_refuted",
    "C78_short_refuted",
    "C78_search_refuted",
    "C78_sync_partial",
    "C78_search_partial",
    "C78_lookup_partial"
   ],
   "note": "False: missing members, too few entries and short ciphertexts panic. Proved: nothing else in the answers does."
  },
  {
   "property": "C79",
   "status": "partial",
   "theorems": [
    "C79_stale_refuted",
    "C79_statement_partial"
   ],
   "note": "False: it may still list expired keys. Proved: it always verifies and lists every key the mix still holds."
  },
  {
   "property": "C80",
   "status": "proved",
   "theorems": [
    "C80_bounded",
    "C80_recovers",
    "C80_undisturbed"
   ],
   "note": ""
  },
  {
   "property": "C81",
   "status": "partial",
   "theorems": [
    "C81_swallowed_refuted",
    "C81_panic_refuted",
    "C81_prefix_partial"
   ],
   "note": "False: bad hex or a missing message ID truncates the list silently, other elements panic. Proved: the result is a prefix, complete if all elements are well formed."
  },
  {
   "property": "C82",
   "status": "partial",
   "theorems": [
    "C82_unverified_refuted",
    "C82_addStatement_partial"
   ],
   "note": "False: the keys are used as received. Proved for AddStatement."
  },
  {
   "property": "C83",
   "status": "partial",
   "theorems": [
    "C83_stuck_refuted",
    "C83_reached_refuted",
    "C83_fresh_partial"
   ],
   "note": "False: the kept token makes all later calls fail. Proved while no token is kept."
  },
  {
   "property": "C84",
   "status": "partial",
   "theorems": [
    "C84_refuted",
    "C84_stuck"
   ],
   "note": "False: the sending loop stops at the refused message, in every later run too."
  },
  {
   "property": "C85",
   "status": "partial",
   "theorems": [
    "C85_refuted",
    "C85_token_partial"
   ],
   "note": "Refuted: a token deleted between being locked and being read gives nil with a nil error. Holds without interference."
  },
  {
   "property": "C86",
   "status": "partial",
   "theorems": [
    "C86_refuted",
    "C86_never",
    "C86_chosen_partial"
   ],
   "note": "Refuted: the runner passes a nil owner, whose nil pointers are copied into (panic). The token chosen is right."
  },
  {
   "property": "C87",
   "status": "partial",
   "theorems": [
    "C87_refuted",
    "C87_read_back",
    "C87_same_partial"
   ],
   "note": "Refuted for a token whose only reissue state is the new owner's public key. Otherwise read back unchanged over all histories."
  },
  {
   "property": "C88",
   "status": "partial",
   "theorems": [
    "C88_refuted",
    "C88_key_partial"
   ],
   "note": "Refuted: a one byte trust root is padded and used. 32 byte keys are used unchanged."
  },
  {
   "property": "C89",
   "status": "partial",
   "theorems": [
    "C89_refuted",
    "C89_small_partial"
   ],
   "note": "Refuted for a delay of 2^63; exact below 2^62."
  },
  {
   "property": "C90",
   "status": "partial",
   "theorems": [
    "C90_refuted",
    "C90_width_partial"
   ],
   "note": "Refuted for every signer: one signature is valid for two keys with different expiry and usage. Holds if coordinate lengths agree."
  },
  {
   "property": "C91",
   "status": "proved",
   "theorems": [
    "C91_codec",
    "C91_marshals",
    "C91_fetch"
   ],
   "note": "Round trip for all keys with a valid UTF-8 usage; the key table over all later writes."
  },
  {
   "property": "C92",
   "status": "partial",
   "theorems": [
    "C92_refuted",
    "C92_works_partial"
   ],
   "note": "Refuted: writeFunc returns nil in both branches. With a working database the key is stored and others are kept."
  },
  {
   "property": "C93",
   "status": "partial",
   "theorems": [
    "C93_refuted",
    "C93_nofetch_partial"
   ],
   "note": "Refuted: two lookups that fetch write the map under the read lock. No race for any number of threads without a fetch callback."
  },
  {
   "property": "C94",
   "status": "proved",
   "theorems": [
    "C94_codec",
    "C94_marshals",
    "C94_signature",
    "C94_new"
   ],
   "note": ""
  },
  {
   "property": "C95",
   "status": "partial",
   "theorems": [
    "C95_refuted",
    "C95_sizes_partial"
   ],
   "note": "Refuted: sizes are not checked after unmarshalling. Holds for tokens with 32 byte key identifiers and 16 byte nonces."
  },
  {
   "property": "C96",
   "status": "proved",
   "theorems": [
    "C96_covers",
    "C96_separate",
    "C96_verify",
    "C96_codec"
   ],
   "note": ""
  },
  {
   "property": "C97",
   "status": "partial",
   "theorems": [
    "C97_refuted",
    "C97_before_partial"
   ],
   "note": "Refuted: the new key file is not synchronised before the rename, so after a power loss no passphrase opens the database. Before the rename the old passphrase keeps working."
  },
  {
   "property": "C98",
   "status": "partial",
   "theorems": [
    "C98_refuted",
    "C98_opens_partial",
    "C98_keeps_partial"
   ],
   "note": "Refuted: interrupted between key file and database file, neither Open nor Create work. A successful Create can be opened and an existing database is never touched."
  },
  {
   "property": "C99",
   "status": "partial",
   "theorems": [
    "C99_refuted",
    "C99_arrive_partial",
    "C99_bad_name"
   ],
   "note": "Refuted: the file name is written unquoted, so a name with a blank or a non-ASCII character makes the whole message unreadable (C99_bad_name, for all messages). Proved for names made of token characters."
  }
 ]
}