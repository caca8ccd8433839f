{"id": "C01", "title": "First message of a new session is understood by the peer", "statement": "If A builds a session from B's published prekey bundle (with or without a one-time prekey) and encrypts a text, then B, holding the matching private keys, decrypts the resulting bytes to exactly that text.", "quantifier": "all key pairs, all random values, all plaintexts, with and without one-time prekey, every prior content of B's record for A that does not already know the base key", "why_tests_cant": "the agreement depends on the order and pairing of four DH values on both sides; a test fixes one set of keys", "anchors": ["axolotl/session.go: BuildSenderSession, SessionEncryptMessage, BuildReceiverSession, SessionDecryptPreKeyWhisperMessage", "axolotl/ratchet.go: initializeSenderSession, initializeReceiverSession"]}
{"id": "C02", "title": "A conversation keeps working for every schedule of sends and deliveries", "statement": "Starting from a fresh session, for every interleaving of sends by both sides and deliveries in any order (loss, reordering, rejected junk and repeated deliveries included), each message delivered for the first time decrypts to exactly the text that was sent, provided it skips at most 2000 keys of its chain and its chain is among the five most recent.", "quantifier": "all finite schedules of send/deliver/replay/junk steps by two parties, all plaintexts, all fresh key material", "why_tests_cant": "the number of schedules is unbounded; unit tests exercise a handful of fixed orders", "anchors": ["axolotl/session.go: SessionEncryptMessage, SessionDecryptWhisperMessage, getOrCreateChainKey, getOrCreateMessageKeys", "axolotl/ratchet.go: createChain"]}
{"id": "C03", "title": "Messages of one sending chain can arrive in any order", "statement": "If a party encrypts n texts in a row, the peer decrypts each of them correctly whatever permutation they arrive in (when no arrival is more than 2000 ahead of the last one consumed).", "quantifier": "all n, all texts, all permutations", "why_tests_cant": "n! arrival orders", "anchors": ["axolotl/session.go: getOrCreateMessageKeys, removeMessageKeys, setMessageKeys"]}
{"id": "C04", "title": "An accepted message is not accepted a second time", "statement": "Once a message has been decrypted successfully in a session, presenting the same bytes again to the receiver is an error and delivers nothing.", "quantifier": "all reachable receiver records, all messages, any number of intervening messages", "why_tests_cant": "needs a history argument over every later state of the record", "anchors": ["axolotl/session.go: sessionState.decrypt, SessionCipher.decrypt, promoteState, getOrCreateMessageKeys"]}
{"id": "C05", "title": "A message that is rejected changes nothing that is stored", "statement": "If decrypting an incoming ordinary message fails for any reason, the stored session, prekeys and identities are exactly as before the call.", "quantifier": "all stored records and all messages, forged ones included", "why_tests_cant": "the in-memory state is modified on many paths before the error is known", "anchors": ["axolotl/session.go: SessionDecryptWhisperMessage, SessionCipher.decrypt"]}
{"id": "C06", "title": "A rejected prekey message leaves the identity store alone", "statement": "If an incoming prekey message cannot be authenticated, the identity recorded for its claimed sender is unchanged.", "quantifier": "all stores and all prekey messages", "why_tests_cant": "the write happens on a success path of a helper called before authentication", "anchors": ["axolotl/session.go: BuildReceiverSession, SessionDecryptPreKeyWhisperMessage", "store.go: SaveIdentity, IsTrustedIdentity"]}
{"id": "C07", "title": "Every accepted message carries a valid MAC over all its bytes", "statement": "If a message decrypts successfully, its last eight bytes are the truncated HMAC, under the MAC key of the message's own chain position, of the sender identity, receiver identity and every preceding byte; hence a byte string that is accepted for a chain position but differs from another one accepted for it differs in the authenticated part and carries a valid tag on that other data (a forgery); changing only the tag is never accepted.", "quantifier": "all session states and all byte strings", "why_tests_cant": "tests flip a few bits; the claim is about every modification", "anchors": ["axolotl/session.go: sessionState.decrypt", "axolotl/messages.go: verifyMAC, getMac, LoadWhisperMessage"]}
{"id": "C08", "title": "No two sent messages share a ratchet key and counter", "statement": "In the sequence of messages a party encrypts, no two carry the same pair (ratchet public key, counter), whatever messages are received in between, as long as fewer than 2^32 messages are sent. More precisely, a pair is carried by at most as many messages as archived sessions have taken from the peer, and by at most one if they have taken none.", "quantifier": "all histories of encrypt and decrypt calls on one session", "why_tests_cant": "key/IV reuse would appear only after particular interleavings", "anchors": ["axolotl/session.go: SessionEncryptMessage, setSenderChainKey, setSenderChain", "axolotl/ratchet.go: getNextChainKey"]}
{"id": "C09", "title": "A crash while sending never causes key reuse", "statement": "If the process stops at any point during an encrypt call and later resumes from disk, a message that was handed to the caller and any later message have different chain positions.", "quantifier": "all crash points within any history of encrypt calls", "why_tests_cant": "crash points cannot be enumerated by a unit test", "anchors": ["axolotl/session.go: SessionEncryptMessage", "store.go: StoreSession, writeFile"]}
{"id": "C10", "title": "Messages too far in the future are refused", "statement": "A message whose counter is more than 2000 ahead of the receiving chain is refused, and one at most 2000 ahead is not refused for that reason; one decrypt call adds at most 2000 skipped keys to any session state of the record.", "quantifier": "all session states and counters in the full 32 bit range", "why_tests_cant": "boundary over the full 32-bit counter space and platform int conversion", "anchors": ["axolotl/session.go: getOrCreateMessageKeys"]}
{"id": "C11", "title": "The number of stored skipped keys is bounded", "statement": "The number of skipped message keys kept in one session state never exceeds a fixed bound of 2000 keys per receiving chain.", "quantifier": "all histories of received messages", "why_tests_cant": "needs a history of many messages", "anchors": ["axolotl/session.go: setMessageKeys, getOrCreateMessageKeys"]}
{"id": "C12", "title": "Session records stay bounded in chains and archived states", "statement": "A session record built by any sequence of encrypt/decrypt/session-building calls never has more than five receiving chains per state or more than forty archived states.", "quantifier": "all histories of API calls", "why_tests_cant": "unbounded histories", "anchors": ["axolotl/session.go: addReceiverChain, promoteState, archiveCurrentState"]}
{"id": "C13", "title": "Re-received prekey messages do not restart the session", "statement": "When a prekey message's base key is already known in the record for its version, processing it neither replaces the current session keys nor needs or removes the one-time prekey it names.", "quantifier": "all records and prekey messages", "why_tests_cant": "depends on all archived states, not only the current one", "anchors": ["axolotl/session.go: hasSessionState, BuildReceiverSession, SessionDecryptPreKeyWhisperMessage"]}
{"id": "C14", "title": "One-time prekeys are consumed exactly by successful use, the last-resort key never", "statement": "A prekey disappears from the store only when a prekey message naming it is decrypted successfully; the last-resort key 0xFFFFFF is never removed; an unsuccessful message removes none.", "quantifier": "all stores and messages", "why_tests_cant": "must hold for every id and failure path", "anchors": ["axolotl/session.go: SessionDecryptPreKeyWhisperMessage, BuildReceiverSession"]}
{"id": "C15", "title": "A crash while receiving a first message does not lose it", "statement": "If the process stops at any point while a prekey message is being processed, presenting the message again after restart still decrypts it.", "quantifier": "all crash points in the sequence of store writes", "why_tests_cant": "crash points between two file operations", "anchors": ["axolotl/session.go: SessionDecryptPreKeyWhisperMessage", "store.go: RemovePreKey, StoreSession"]}
{"id": "C16", "title": "Trust on first use pins the identity key", "statement": "Unless the configuration says to always trust, once an identity key is stored for a peer, neither building a sending session nor receiving a prekey message with a different key succeeds, creates a session or replaces the stored key, in any later history.", "quantifier": "all histories of session-building and decrypting calls for a peer, all keys", "why_tests_cant": "adversarial histories", "anchors": ["store.go: IsTrustedIdentity, SaveIdentity", "axolotl/session.go: BuildSenderSession, BuildReceiverSession"]}
{"id": "C17", "title": "A session is only built on a signed prekey with a valid signature", "statement": "Building a sending session from a bundle fetched from the server stores a session only if the signature on the signed prekey verifies under the bundle's identity key.", "quantifier": "all server responses", "why_tests_cant": "all malformed or malicious responses", "anchors": ["axolotl/session.go: BuildSenderSession", "prekeys.go: makePreKeyBundle", "axolotl/prekeys.go: NewPreKeyBundle"]}
{"id": "C18", "title": "Encrypted messages survive their wire format", "statement": "Parsing the serialization of an ordinary or prekey message returns the same version, ratchet key, counters, ids, keys and ciphertext.", "quantifier": "all field values within the field types", "why_tests_cant": "all 32-bit values and arbitrary byte strings", "anchors": ["axolotl/messages.go: newWhisperMessage, LoadWhisperMessage, newPreKeyWhisperMessage, LoadPreKeyWhisperMessage"]}
{"id": "C19", "title": "Parsing a received message never crashes the process", "statement": "For every byte string received from the network, parsing it as an ordinary or prekey message returns a message or an error, never a panic.", "quantifier": "all byte strings", "why_tests_cant": "all inputs", "anchors": ["axolotl/messages.go: LoadWhisperMessage, LoadPreKeyWhisperMessage", "axolotl/keys.go: NewECPublicKey, ensureKeyLength"]}
{"id": "C20", "title": "Message encryption and decryption are inverse", "statement": "CBC decryption of iv followed by the encryption of a text returns the text, for every length including multiples of the block size.", "quantifier": "all keys, ivs and plaintexts", "why_tests_cant": "all lengths and contents", "anchors": ["axolotl/crypto.go: Encrypt, Decrypt", "crypto.go: aesEncrypt, aesDecrypt"]}
{"id": "C21", "title": "Decryption rejects malformed padding instead of crashing", "statement": "CBC decryption of an arbitrary byte string returns a plaintext or an error, never a panic, and only accepts padding that encryption could have produced.", "quantifier": "all byte strings and keys", "why_tests_cant": "all inputs", "anchors": ["axolotl/crypto.go: Decrypt", "crypto.go: aesDecrypt"]}
{"id": "C22", "title": "Stored sessions are read back unchanged", "statement": "Serializing a session record and loading it again yields the same record: all keys, counters, skipped keys, chains, pending prekey data and archived states.", "quantifier": "all records with 32-bit counters and arbitrary byte fields", "why_tests_cant": "arbitrarily large nested records", "anchors": ["axolotl/session.go: SessionRecord.Serialize, LoadSessionRecord", "axolotl/protobuf/LocalStorageProtocol.proto"]}
{"id": "C23", "title": "Stored prekeys are read back unchanged", "statement": "Serializing a prekey or signed prekey record and loading it again yields the same id, key pair, signature and timestamp.", "quantifier": "all ids, keys, timestamps", "why_tests_cant": "all values", "anchors": ["axolotl/prekeys.go: NewPreKeyRecord, LoadPreKeyRecord, NewSignedPreKeyRecord, LoadSignedPreKeyRecord"]}
{"id": "C24", "title": "Encrypted storage round trip and tamper detection", "statement": "What is written through the password-encrypted store is read back unchanged, and a stored blob of at least MAC length that is not authenticated by the store's MAC key is never returned as data.", "quantifier": "all blobs, keys, ivs", "why_tests_cant": "all modifications of all blobs", "anchors": ["store.go: encrypt, decrypt, readFile, writeFile", "crypto.go: appendMAC, verifyMAC"]}
{"id": "C25", "title": "Reading a damaged store file is an error, not a crash", "statement": "Opening a stored file of any content with an encrypted store returns data or an error.", "quantifier": "all file contents", "why_tests_cant": "includes truncated files left by a crash", "anchors": ["store.go: decrypt, LoadSession"]}
{"id": "C26", "title": "Session files of different peers and devices never collide", "statement": "Sessions stored for different (recipient, device) pairs use different files, and deleting all sessions of a recipient removes exactly that recipient's session files.", "quantifier": "all recipient ids and 32-bit device ids, all directory contents made by the store", "why_tests_cant": "string concatenation collisions over all ids", "anchors": ["store.go: sessionFilePath, GetSubDeviceSessions, DeleteAllSessions"]}
{"id": "C27", "title": "Prekey file names identify the prekey", "statement": "The file name of a prekey determines its id, reading the name back returns the id, and lexicographic order of names is numeric order of ids below 10^9.", "quantifier": "all 32-bit ids", "why_tests_cant": "all ids", "anchors": ["store.go: idToFilename, filenameToID"]}
{"id": "C28", "title": "Registration numbers survive storage", "statement": "A registration id written to the identity store is read back unchanged, and a generated id is below 16384.", "quantifier": "all 32-bit values", "why_tests_cant": "all values", "anchors": ["store.go: writeNumToFile, readNumFromFile", "textsecure.go: generateRegistrationID"]}
{"id": "C29", "title": "A session write is atomic with respect to crashes", "statement": "If the process stops during the write of a session file, the next load returns either the old or the new session.", "quantifier": "all crash points of the write", "why_tests_cant": "partial writes", "anchors": ["store.go: writeFile, LoadSession", "axolotl/session.go: LoadSessionRecord"]}
{"id": "C30", "title": "Message padding is invertible and hides the length", "statement": "Padding always yields a multiple of 160 bytes, at most 160 longer than the text, the padded length depends only on the length range, and stripping returns exactly the original text.", "quantifier": "all byte strings", "why_tests_cant": "all lengths and contents, including texts ending in 0x80 or zeros", "anchors": ["server.go: padMessage, stripPadding"]}
{"id": "C31", "title": "After a mismatch reply the device list is corrected", "statement": "After the server answers that devices are missing or extra, the next attempt addresses exactly the previous devices that are not extra followed by the missing ones; after a stale reply the sessions of the stale devices are rebuilt; on success the accepted request had one entry per listed device.", "quantifier": "all device lists and server reply sequences", "why_tests_cant": "unbounded reply sequences", "anchors": ["server.go: buildAndSendMessage, buildMessage"]}
{"id": "C32", "title": "Sending stops", "statement": "Sending a message terminates for every behaviour of the server.", "quantifier": "all infinite server reply sequences", "why_tests_cant": "non-termination cannot be observed by a test", "anchors": ["server.go: buildAndSendMessage"]}
{"id": "C33", "title": "Each device is addressed at most once per request", "statement": "A request built for a recipient contains at most one message per device.", "quantifier": "all server reply sequences", "why_tests_cant": "depends on server-provided lists", "anchors": ["server.go: buildAndSendMessage"]}
{"id": "C34", "title": "Building a message for a device never crashes", "statement": "Building the message for a recipient's devices returns messages or an error for every prekey response of the server.", "quantifier": "all prekey responses", "why_tests_cant": "all server behaviours", "anchors": ["server.go: buildMessage", "prekeys.go: makePreKeyBundle", "axolotl/session.go: SessionEncryptMessage"]}
{"id": "C35", "title": "Text given to the send API reaches the recipient's handler unchanged", "statement": "The body, timestamp, expiry timer, flags, profile key, attachment pointer and group-v2 context put in an outgoing message are those found by the receiver after transport padding, encryption, decryption and parsing.", "quantifier": "all message contents", "why_tests_cant": "composition of serialization, padding and encryption for all contents", "anchors": ["server.go: createMessage, padMessage", "handler.go: handleMessage, handleDataMessage"]}
{"id": "C36", "title": "Group context given to the send API is transmitted", "statement": "A message sent to a v1 group carries the group id and type to each member.", "quantifier": "all groups and messages", "why_tests_cant": "no test inspects the serialized content", "anchors": ["groups.go: sendGroupHelper, sendUpdate, LeaveGroup", "server.go: createMessage"]}
{"id": "C37", "title": "Every request on the message socket is acknowledged exactly once, after it was handled", "statement": "For every sequence of frames, acknowledgements are queued in request order, one per request frame, each after the handling of that frame has finished and whatever its outcome.", "quantifier": "all frame sequences and handler outcomes", "why_tests_cant": "unbounded sequences", "anchors": ["websocket.go: StartListening, sendAck"]}
{"id": "C38", "title": "Only authenticated envelopes are processed when a signaling key is in use", "statement": "A received body whose MAC does not verify under the signaling key is rejected.", "quantifier": "all bodies", "why_tests_cant": "all forgeries", "anchors": ["textsecure.go: decryptReceivedMessage"]}
{"id": "C39", "title": "An unprocessable frame does not kill the listener", "statement": "For every frame body the receive loop handles or rejects it without a panic.", "quantifier": "all bodies", "why_tests_cant": "all inputs", "anchors": ["websocket.go: StartListening", "textsecure.go: decryptReceivedMessage, handleReceivedMessage"]}
{"id": "C40", "title": "Each content goes to exactly one handler, by a fixed priority", "statement": "A decrypted content is given to the handler of the first present part in the order data, sync, call, receipt, typing, null, and to no other.", "quantifier": "all contents", "why_tests_cant": "all combinations of parts", "anchors": ["handler.go: handleMessage"]}
{"id": "C41", "title": "An end-session message removes exactly the sender's sessions", "statement": "After an end-session message from a peer, no session with that peer remains on any device and sessions of other peers are untouched.", "quantifier": "all stores and peers", "why_tests_cant": "all store contents", "anchors": ["textsecure.go: handleFlags, EndSession", "store.go: DeleteAllSessions"]}
{"id": "C42", "title": "A lost or early helper reply does not block the caller forever", "statement": "Every request sent to the helper process that is answered eventually returns its answer to the caller.", "quantifier": "all schedules of the requesting goroutine and the socket reader", "why_tests_cant": "race between goroutines", "anchors": ["crayfish/envelope.go: HandleEnvelope", "crayfish/backend.go: handleCrayfishResponseMessage"]}
{"id": "C43", "title": "Leaving a v1 group is effective", "statement": "After a member quits, they are in the member list no more and other members remain in order; after leaving a group ourselves it is gone.", "quantifier": "all groups and members", "why_tests_cant": "all member lists, duplicates included", "anchors": ["groups.go: removeMember, quitGroup, LeaveGroup, changeGroup"]}
{"id": "C44", "title": "Group changes are only applied when authorised", "statement": "Each kind of group-v2 change (title, access, roles, add or delete members, invite link, approvals) is applied only if the acting member satisfies the access rule of that kind, and only administrators can create administrators.", "quantifier": "all groups, actors and changes", "why_tests_cant": "all combinations of roles, access levels and actions", "anchors": ["groupsv2/groupAuth.go", "groupsv2/groupChange.go"]}
{"id": "C45", "title": "Authorisation is judged on the group as it was before the change", "statement": "Within one group change, whether an action is allowed does not depend on the other actions of the same change.", "quantifier": "all changes with several actions", "why_tests_cant": "combinations of actions", "anchors": ["groupsv2/groupModify.go: ModifyGroup"]}
{"id": "C46", "title": "A rejected group change leaves the group unchanged", "statement": "If applying a group change returns an error, the group state is the same as before.", "quantifier": "all groups and changes", "why_tests_cant": "all failing positions in a multi-action change", "anchors": ["groupsv2/groupModify.go: ModifyGroup", "groupsv2/groupChange.go: ApplyAddMembers"]}
{"id": "C47", "title": "A valid group change succeeds", "statement": "There are group changes that are accepted: a title change by an administrator of a valid group is applied.", "quantifier": "all groups and changes (refutation ranges over all)", "why_tests_cant": "the claim that none succeeds ranges over every group and change", "anchors": ["groupsv2/groupModify.go: ModifyGroup", "groupsv2/groupValidator.go: ValidateFinalGroupState"]}
{"id": "C48", "title": "A validated group has no duplicate or doubly listed member", "statement": "A group accepted by the final validation has no user twice in any list nor in two lists, has valid roles, sizes within the limit and a non-empty title within the limit.", "quantifier": "all groups", "why_tests_cant": "all lists", "anchors": ["groupsv2/groupValidator.go: ValidateFinalGroupState"]}
{"id": "C49", "title": "Both parties compute the same safety number", "statement": "The displayed safety number is the same whichever side computes it, always consists of twelve blocks of five digits, and the scannable code of one side is that of the other with the halves swapped.", "quantifier": "all identifiers and identity keys", "why_tests_cant": "all hash values", "anchors": ["fingerprint/fingerprint.go", "fingerprint/fingerprint_numbers.go", "fingerprint/qr_fingerprint.go"]}
{"id": "C50", "title": "Computing a safety number never crashes", "statement": "The safety number is computed for every pair of identifiers and keys, the own one included.", "quantifier": "all identifiers and keys", "why_tests_cant": "depends on equal digests", "anchors": ["fingerprint/fingerprint_numbers.go: compareFingerprintBlocks"]}
{"id": "C51", "title": "Key and signature encodings are exact", "statement": "Decoding an encoded public key returns it; decoding accepts exactly 33-byte strings starting with 5 and signatures of exactly 64 bytes; unpadded base64 decoding inverts encoding.", "quantifier": "all byte strings", "why_tests_cant": "all lengths modulo 3 and contents", "anchors": ["textsecure.go: encodeKey, decodeKey, decodeSignature", "helpers/base64.go"]}
{"id": "C52", "title": "UUID text conversion is exact", "statement": "Formatting 16 bytes as a UUID is injective, yields the 8-4-4-4-12 form and is consistent with the hex form.", "quantifier": "all 16-byte strings", "why_tests_cant": "2^128 values", "anchors": ["server.go: idToHexUUID", "helpers/helpers.go: HexToUUID", "sync.go: isValidUUID"]}
{"id": "C53", "title": "Sync streams of contacts and groups can be split again", "statement": "The length-prefixed stream produced for a list of records parses back to the same list.", "quantifier": "all lists of records below 2^32 bytes each", "why_tests_cant": "all lengths at varint boundaries", "anchors": ["sync.go: sendContactUpdate, sendGroupUpdate, varint32"]}
{"id": "C54", "title": "Published prekeys are the stored ones and the last-resort key is published as such", "statement": "After generating prekeys into an empty store the upload lists every stored one-time prekey and names prekey 0xFFFFFF as the last-resort key.", "quantifier": "all random start ids", "why_tests_cant": "fails only for a few of 2^24 starts", "anchors": ["prekeys.go: generatePreKeys, generatePreKeyState, loadPreKeys"]}
{"id": "C55", "title": "Attachments round trip and are authenticated", "statement": "Decrypting an uploaded attachment with its pointer returns the original bytes, and a downloaded blob not authenticated by the pointer's key is rejected.", "quantifier": "all contents and blobs", "why_tests_cant": "all sizes and modifications", "anchors": ["attachments.go: uploadAttachmentV3, handleSingleAttachment"]}
{"id": "C56", "title": "Profile names round trip", "statement": "Encrypting a name with a profile key and decrypting it returns the name; names over 53 bytes are refused.", "quantifier": "all names and keys", "why_tests_cant": "all byte strings including trailing zeros", "anchors": ["profiles/profile.go: encryptName, decryptName"]}
{"id": "C57", "title": "Contact discovery queries are exact", "statement": "The query data encodes every phone number given, in order, in eight big-endian bytes from which it can be recovered, and the answer for number i is read from its own 16-byte slot.", "quantifier": "all lists of numbers", "why_tests_cant": "all lists", "anchors": ["contactDiscoveryCrypto/contactDiscoveryCrypto.go", "server.go: GetRegisteredContacts"]}
{"id": "C58", "title": "The contact table is keyed consistently", "statement": "After loading contacts each is found under its UUID, or its number if it has none; updating a profile key changes no other field and no other contact.", "quantifier": "all contact lists and update histories", "why_tests_cant": "all histories", "anchors": ["contacts/contacts.go: LoadContacts, UpdateProfileKey"]}
{"id": "C59", "title": "Group credentials stay usable over time", "statement": "At any time, a credential for the current day is obtained, whatever was cached earlier.", "quantifier": "all times and caches", "why_tests_cant": "requires a process living for more than a week", "anchors": ["groupsv2/credentials.go: GetCredentialForRedemption"]}
{"id": "C60", "title": "Verifying a signature does not change it", "statement": "Verifying the same signature twice gives the same answer.", "quantifier": "all signatures", "why_tests_cant": "only for signatures with the sign bit set", "anchors": ["curve25519sign/curve25519sign.go: Verify"]}
{"id": "C61", "title": "A late message does not harm a newer session", "statement": "Decrypting a delayed message of an older session does not affect the newer session: messages B then sends in the newer session can be decrypted by A exactly as if the late message had not come.", "quantifier": "all interleavings of messages of two sessions", "why_tests_cant": "needs two sessions, a particular reordering, and a reply after it", "anchors": ["axolotl/session.go: decrypt, 300-330; SessionCipher decrypt, 600-630"]}
{"id": "C62", "title": "Every prekey a client may publish is usable", "statement": "For all prekey and signed-prekey ids the client may generate, a first message built from the published bundle is decrypted by the publisher.", "quantifier": "all ids the generator can return (0 to 2^24-1), all keys", "why_tests_cant": "one id in 16 million; random in tests", "anchors": ["prekeys.go: randID, generatePreKeys, generateSignedPreKey", "axolotl/session.go: BuildSenderSession", "axolotl/messages.go: LoadPreKeyWhisperMessage"]}
{"id": "C63", "title": "A damaged session file is reported", "statement": "Loading a session whose file exists but cannot be authenticated reports an error instead of silently starting without a session.", "quantifier": "all file contents, all peers", "why_tests_cant": "needs all contents; tests only write and read well-formed files", "anchors": ["store.go: LoadSession, readFile, decrypt"]}
{"id": "C64", "title": "The devices listed for a recipient are that recipient's", "statement": "GetSubDeviceSessions returns exactly the devices for which a session with the given recipient is stored.", "quantifier": "all directory contents made by the store", "why_tests_cant": "only visible with sessions of several recipients", "anchors": ["store.go: GetSubDeviceSessions"]}
{"id": "C65", "title": "Only well-formed UUIDs are accepted as valid", "statement": "A text is accepted as a valid UUID exactly if it is 36 characters, 8-4-4-4-12 hexadecimal digits separated by hyphens, with version and variant digits of a random UUID.", "quantifier": "all texts", "why_tests_cant": "one odd character in one position of an otherwise valid UUID", "anchors": ["sync.go: isValidUUID"]}
{"id": "C66", "title": "A refused copy for the own devices does not harm the sender", "statement": "If the recipient's message was accepted but the server refuses the copy for the sender's other devices, the send call returns normally.", "quantifier": "all server behaviours and messages", "why_tests_cant": "needs a linked device and a failure between two requests", "anchors": ["sender.go: sendMessage, sendSyncMessage"]}
{"id": "C67", "title": "Sending to one recipient leaves what is kept for others alone", "statement": "Whatever the server answers, sending to a recipient changes no session, pinned identity key or device list of any other recipient, and none of the own keys.", "quantifier": "all states, recipients and server reply sequences", "why_tests_cant": "needs all reply sequences and all other recipients", "anchors": ["server.go: buildMessage, buildAndSendMessage", "axolotl/session.go: BuildSenderSession"]}
{"id": "C68", "title": "Only the own account can send synchronisation messages", "statement": "A synchronisation message that did not come from the own account has no effect: it deletes no sessions, changes no contact and calls no callback.", "quantifier": "all senders and synchronisation messages", "why_tests_cant": "tests send synchronisation messages only from oneself", "anchors": ["sync.go: handleSyncMessage, handleSyncSent", "textsecure.go: handleFlags"]}
{"id": "C69", "title": "No content of a peer stops the client", "statement": "Handling any content a peer can send ends normally or with an error, never with a panic.", "quantifier": "all contents", "why_tests_cant": "needs contents no regular client makes", "anchors": ["handler.go: handleReceiptMessage, handleDataMessage", "attachments.go: handleSingleAttachment"]}
{"id": "C70", "title": "A message survives a crash during its reception", "statement": "If the client stops while handling a message and the server delivers it again, the message reaches the callback.", "quantifier": "all moments of stopping", "why_tests_cant": "needs a stop between two particular operations", "anchors": ["textsecure.go: handleReceivedMessage", "axolotl/session.go: SessionDecryptWhisperMessage, SessionDecryptPreKeyWhisperMessage"]}
{"id": "C71", "title": "A message is acknowledged only when it was handed over or refused for good", "statement": "A message that could be handed to the callback at a later attempt is not acknowledged before it was.", "quantifier": "all messages and outcomes of fetching attachments", "why_tests_cant": "needs a transient failure of another server", "anchors": ["websocket.go: StartListening", "handler.go: handleDataMessage", "attachments.go: handleAttachments"]}
{"id": "C72", "title": "Call messages reach the call callback", "statement": "A content with a call part is given to the callback registered for calls.", "quantifier": "all contents", "why_tests_cant": "no test registers callbacks", "anchors": ["handler.go: handleCallMessage", "textsecure.go: Client"]}
{"id": "C73", "title": "A message that decrypts reaches the callback", "statement": "When the session layer returns a plaintext for a message and stores the advanced session, the content is handled.", "quantifier": "all stores and messages", "why_tests_cant": "needs a session stored under an old form of the sender's id", "anchors": ["textsecure.go: handleReceivedMessage"]}
{"id": "C74", "title": "A message is presented as coming from whoever's session decrypted it", "statement": "Every message given to the message callback for an identified envelope was decrypted in the session of the envelope's source and carries that source.", "quantifier": "all envelopes, stores and contents", "why_tests_cant": "needs all contents and envelopes", "anchors": ["textsecure.go: handleReceivedMessage", "handler.go: handleMessage, handleDataMessage"]}
{"id": "C75", "title": "The copy for the own devices has the same effect there", "statement": "On another device of the sender the copy of a sent text reaches the callback for sent messages with its destination, and the copy of a session reset removes the sessions with that destination.", "quantifier": "all texts and destinations", "why_tests_cant": "needs two devices of one account", "anchors": ["sender.go: sendMessage", "sync.go: handleSyncSent", "textsecure.go: handleFlags"]}
{"id": "C76", "title": "A message delivered again is recognised as a duplicate", "statement": "Handling an ordinary message a second time is recognised as a duplicate and ends without error.", "quantifier": "all messages", "why_tests_cant": "the duplicate error exists and is handled by the caller, but whether it can occur needs all paths", "anchors": ["axolotl/session.go: SessionCipher.decrypt", "textsecure.go: handleReceivedMessage"]}
{"id": "C77", "title": "The attachment received is the one the sender described", "statement": "A file handed to the user as an attachment has the digest given in the message that announced it.", "quantifier": "all pointers and all files a server may give out", "why_tests_cant": "needs a server that gives out a different, correctly keyed file", "anchors": ["attachments.go: handleSingleAttachment"]}
{"id": "C78", "title": "Uploading an attachment never crashes", "statement": "Whatever the upload servers answer, uploading an attachment returns a pointer or an error.", "quantifier": "all server answers", "why_tests_cant": "needs all answers, including ones without a Location header", "anchors": ["attachments.go: uploadAttachmentV3, allocateAttachmentV3, relativePath"]}
{"id": "C79", "title": "A fetched profile carries the decrypted name", "statement": "Fetching a profile with its profile key returns the name its owner published, and a profile that cannot be decrypted is an error.", "quantifier": "all profiles, keys and server answers", "why_tests_cant": "needs a server that answers the second request", "anchors": ["profiles/profile.go: GetProfile, decryptProfile, GetProfileAndCredential"]}
{"id": "C80", "title": "Contacts survive a restart", "statement": "After the process is restarted every contact that was saved is found again under the same key.", "quantifier": "all contact tables and all histories of synchronisation and profile key updates", "why_tests_cant": "needs tables with several unregistered contacts, written and read back", "anchors": ["contacts/contacts.go: LoadContacts, WriteContactsToPath", "server.go: GetRegisteredContacts"]}
{"id": "C81", "title": "Synchronising contacts keeps what was learned about them", "statement": "After the contacts are synchronised with the server, a contact that is still in the address book has the profile key learned from its messages.", "quantifier": "all tables, address books and server answers", "why_tests_cant": "needs a history of messages followed by a synchronisation", "anchors": ["server.go: GetRegisteredContacts", "contacts/contacts.go: UpdateProfileKey"]}
{"id": "C82", "title": "One number does not prevent the others from being found", "statement": "A number in the address book that cannot be looked up is left out; the registered contacts among the others are found.", "quantifier": "all address books", "why_tests_cant": "needs all texts the phone number filter lets through", "anchors": ["server.go: GetRegisteredContacts", "contactsDiscovery"]}
{"id": "C83", "title": "A malformed discovery answer is an error", "statement": "Whatever the discovery service answers, synchronising contacts returns contacts or an error.", "quantifier": "all answers", "why_tests_cant": "needs answers of every length", "anchors": ["server.go: GetRegisteredContacts"]}
{"id": "C84", "title": "Refreshing a profile changes that contact only", "statement": "After a profile was fetched for one contact, all other contacts are as before.", "quantifier": "all contacts and server answers", "why_tests_cant": "needs a server that answers with somebody else's identifier", "anchors": ["profiles/profile.go: GetProfileUUID"]}
{"id": "C85", "title": "A signature that was made is accepted", "statement": "A signature made with a private key over a message verifies under the matching public key, for either sign of the key.", "quantifier": "all key pairs, messages and random bytes", "why_tests_cant": "needs both signs of the public key and all scalars; tests sample", "anchors": ["curve25519sign/curve25519sign.go: Sign, Verify"]}
{"id": "C86", "title": "Requests to the helper process are not mixed up", "statement": "When several requests to the helper process are waiting, each returns the answer to it.", "quantifier": "all numbers of concurrent requests and all orders of events", "why_tests_cant": "needs all interleavings of callers, writer, helper and reader", "anchors": ["crayfish/backend.go: handleCrayfishResponseMessage", "crayfish/envelope.go: HandleEnvelope", "crayfish/avatar.go: DecryptAvatar"]}
{"id": "C87", "title": "A group message goes to every other member", "statement": "When sending to an old style group succeeds, the text was sent to every member but ourselves, to nobody else, and under the UUID of the member if one is known.", "quantifier": "all member lists, contact tables and histories", "why_tests_cant": "needs all member lists and contact tables", "anchors": ["groups.go: sendGroupHelper, GetContactForTel"]}
{"id": "C88", "title": "One unreachable member does not keep a group message from the others", "statement": "If sending to one member of a group fails, the others still get the message.", "quantifier": "all groups and all outcomes of sending", "why_tests_cant": "needs failures at every position", "anchors": ["groups.go: sendGroupHelper, sendGroupV2Helper"]}
{"id": "C89", "title": "Renaming a group keeps its members", "statement": "Updating an old style group with a new name and the members it has gives the same members.", "quantifier": "all groups", "why_tests_cant": "needs the list that was read back to be given again", "anchors": ["groups.go: changeGroup, UpdateGroup, GetGroupById"]}
{"id": "C90", "title": "Groups survive a restart", "statement": "After a restart every old style group that was created or updated is as it was.", "quantifier": "all histories of creating, updating and leaving groups, all storage directories", "why_tests_cant": "needs histories, write failures and unusual directory names", "anchors": ["groups.go: setupGroups, saveGroup, changeGroup"]}
{"id": "C91", "title": "An accepted group change does what it names and nothing else", "statement": "If a change to a group of the second version is accepted, then the title, avatar, description, link password, announcement mode, access rules and revision are what the change says or else unchanged; the members are those before plus those added (as their verified presentations name them) minus those removed plus those approved; roles and profile keys are as the change says or unchanged; and the waiting lists lose exactly those the change names.", "quantifier": "all groups, actors, libraries, limits and changes of any combination of actions", "why_tests_cant": "every combination of nineteen kinds of action over every group", "anchors": ["groupsv2/groupModify.go: ModifyGroup", "groupsv2/groupChange.go"]}
{"id": "C92", "title": "An administrator can invite someone to a group", "statement": "A change by an administrator of a valid group that invites a user who is in none of its lists is accepted.", "quantifier": "all groups and invitations (the refutation ranges over all)", "why_tests_cant": "that no invitation at all is accepted ranges over every change", "anchors": ["groupsv2/groupValidator.go: ValidateMemberPendingProfileKey", "groupsv2/groupChange.go: ApplyAddMembersPendingProfileKeys"]}
{"id": "C93", "title": "An invited user who accepts becomes a member", "statement": "When a user on the list of invited users accepts with a presentation that verifies and the change is accepted, the user is a member afterwards.", "quantifier": "all groups and users", "why_tests_cant": "that acceptance never makes a member ranges over every change", "anchors": ["groupsv2/groupChange.go: ApplyPromoteMembersPendingProfileKey"]}
{"id": "C94", "title": "A request to join can be approved", "statement": "A user whose request to join was taken can be approved by an administrator.", "quantifier": "all groups, requests and approvals", "why_tests_cant": "needs two changes by two users, over every group", "anchors": ["groupsv2/groupChange.go: ApplyAddMembersPendingAdminApproval, ApplyPromotePendingAdminApproval"]}
{"id": "C95", "title": "A description within the configured limit is accepted", "statement": "A group that is valid and whose description is within the limit the validator was configured with for descriptions passes the validation.", "quantifier": "all groups and limits", "why_tests_cant": "all lengths and limits", "anchors": ["groupsv2/groupValidator.go: NewGroupValidator"]}
{"id": "C96", "title": "A message of a group does not stop the client", "statement": "Receiving a data message that names a group of the second version never crashes the client, whatever the group is and whatever the server answers about it.", "quantifier": "all stored groups, messages and server answers", "why_tests_cant": "depends on what is stored, on the message and on every answer of the server together", "anchors": ["groupsv2/groupsv2.go: HandleGroupsV2"]}
{"id": "C97", "title": "A group change that is presented was signed by the server", "statement": "Whenever a received message is handed over with a group change, that change says nothing or is the content of bytes that carry a valid signature of the server, whatever happened before.", "quantifier": "all histories of messages, calls and restarts", "why_tests_cant": "the change may have been stored by any earlier event", "anchors": ["groupsv2/groupsv2.go: HandleGroupsV2, loadGroupV2, saveGroupV2"]}
{"id": "C98", "title": "A group change is presented with the message that carried it", "statement": "A received message is handed over with a group change exactly if it carried one that is new for the group.", "quantifier": "all histories and states", "why_tests_cant": "needs histories in which the change is stored in between or sent again", "anchors": ["groupsv2/groupsv2.go: HandleGroupsV2, UpdateGroupFromServer"]}
{"id": "C99", "title": "Only members can write to a group", "statement": "A message is handed over as belonging to a group only if its sender is a member of that group.", "quantifier": "all senders, groups and messages", "why_tests_cant": "absence of a check for every sender", "anchors": ["groupsv2/groupsv2.go: HandleGroupsV2", "handler.go: handleDataMessage"]}
{"id": "C100", "title": "Stored groups are found", "statement": "A group of the second version that is stored on disk can be looked up and written to, before and after restarts.", "quantifier": "all stored groups and contents of memory", "why_tests_cant": "depends on which groups were touched since the start of the process", "anchors": ["groupsv2/groupsv2.go: FindGroup"]}
{"id": "C101", "title": "Joining a group succeeds only if the server agrees", "statement": "JoinGroup returns without error only if the server accepted the change, and asks for the revision after the one it knows only on behalf of someone who is invited.", "quantifier": "all groups, answers and outcomes", "why_tests_cant": "ranges over every answer of the server at three points", "anchors": ["groupsv2/createGroupChange.go: AddPendingMembers, findMemberByUuid", "groups.go: JoinGroup"]}
{"id": "C102", "title": "An update of a group that fails loses nothing", "statement": "If updating a group from the server returns an error, what was known about the group is still known.", "quantifier": "all states and server answers", "why_tests_cant": "all answers that cannot be read, in all states", "anchors": ["groupsv2/groupsv2.go: UpdateGroupFromServer", "groupsv2/decrypt.go: decryptGroupFromServer"]}
{"id": "C103", "title": "An incomplete group state is not taken over", "statement": "An answer of the server whose body is not a complete Group message does not replace what is known about a group.", "quantifier": "all states and answers", "why_tests_cant": "all places at which a body may break off", "anchors": ["groupsv2/groupsv2.go: queryGroupChangeFromServer"]}
{"id": "C104", "title": "Every member the server lists is known", "statement": "After a successful update the members known are those the server listed, in the same order and with their roles.", "quantifier": "all lists of members", "why_tests_cant": "lists of any length, each entry readable or not", "anchors": ["groupsv2/decrypt.go: decryptGroup, decryptMember"]}
{"id": "C105", "title": "The join status of a group is true", "statement": "After a successful update a group is marked as joined exactly if the own account is among its members, and as invited exactly if it is among the invited.", "quantifier": "all groups and accounts", "why_tests_cant": "all member lists", "anchors": ["groupsv2/helpers.go: CheckJoinStatus"]}
{"id": "C106", "title": "A group title is presented as it was set", "statement": "The title shown for a group is the text in the decrypted attribute of the group.", "quantifier": "all titles of fewer than 128 printable characters", "why_tests_cant": "the effect depends on the length of the title", "anchors": ["groupsv2/decrypt.go: decryptGroup"]}
{"id": "C107", "title": "A message to a group of the second version goes to the other members", "statement": "A message to a group the own account is a member of is sent to every other member and to nobody else.", "quantifier": "all groups and outcomes of sending", "why_tests_cant": "all member lists and all patterns of failures", "anchors": ["groups.go: sendGroupV2Helper"]}
{"id": "C108", "title": "A registration that failed is tried again", "statement": "If registering failed at any point, the next Setup registers again, so that a Setup without error means that the server has the keys of this installation.", "quantifier": "all sequences of starts, interrupted anywhere, with any pattern of failing writes and server answers", "why_tests_cant": "needs the server or the disk to fail at one of more than a hundred points, followed by a restart", "anchors": ["textsecure.go: Setup, registerDevice", "store.go: valid", "textsecure.go: needsRegistration", "prekeys.go: generatePreKeys"]}
{"id": "C109", "title": "The identity the server was told is the one in the store", "statement": "Once identity and prekeys were uploaded, the identity key in the store is the uploaded one for the rest of the life of the installation, and none is uploaded again.", "quantifier": "all lives of an installation: starts completed or interrupted after any event, failing writes, ordinary use in between", "why_tests_cant": "quantifies over all interruption points of all starts", "anchors": ["textsecure.go: Setup, registerDevice", "server.go: registerPreKeys", "store.go: SetIdentityKeyPair"]}
{"id": "C110", "title": "The profile key survives a restart", "statement": "Starting the client again leaves the profile key, which contacts hold to read the profile, as it was.", "quantifier": "all starts of an installation that has a profile key and a name", "why_tests_cant": "the key changes silently; only a relation between two starts shows it", "anchors": ["textsecure.go: Setup", "profiles/profile.go: GenerateProfileKey"]}
{"id": "C111", "title": "The stored profile credential is for the stored profile key", "statement": "After every successful start the profile key credential in the configuration is the one the server issues for the profile key in the configuration.", "quantifier": "all sequences of starts", "why_tests_cant": "a relation between two values that must hold after any number of starts", "anchors": ["textsecure.go: Setup", "profiles/profile.go: GetProfileAndCredential"]}
{"id": "C112", "title": "Two installations have different profile keys", "statement": "Profile keys come from the secure random source, so that installations which differ in all their other secrets differ in this one as well.", "quantifier": "all pairs of installations", "why_tests_cant": "a statement about pairs of runs in separate processes", "anchors": ["profiles/profile.go: GenerateProfileKey (math/rand)"]}
{"id": "C113", "title": "No two profile names are encrypted with the same key and nonce", "statement": "For any two different names that are sent to the server, the pair of profile key and nonce differs.", "quantifier": "all pairs of profile updates, also of different installations", "why_tests_cant": "a statement about all pairs of runs", "anchors": ["profiles/profile.go: UpdateProfile, GenerateProfileKey (math/rand)"]}
{"id": "C114", "title": "An expired sender certificate is renewed", "statement": "A start after the expiry of the stored sender certificate asks for a new one and stores it.", "quantifier": "all certificates and times", "why_tests_cant": "ranges over all pairs of clock and expiry; shows only years later", "anchors": ["unidentifiedAccess/unidentifiedAccess.go: CheckCertificate", "textsecure.go: Setup, renewSenderCertificate"]}
{"id": "C115", "title": "A bad answer to the certificate request can be recovered from", "statement": "Whatever the server once answered to the request for a sender certificate, a later start can succeed when the server works again.", "quantifier": "all answers and all sequences of later starts", "why_tests_cant": "says that no sequence of later starts, of any length, can succeed", "anchors": ["transport/unidentifiedCert.go: GetSenderCertificate", "unidentifiedAccess/unidentifiedAccess.go: CheckCertificate"]}
{"id": "C116", "title": "A client that has started has its identity", "statement": "If Setup returns no error then the identity key pair in use is the one in the store, and its public key is the one that was uploaded.", "quantifier": "all lives of an installation followed by a start", "why_tests_cant": "all interruption points and histories; the counterexample needs two faults at once", "anchors": ["textsecure.go: Setup", "store.go: GetIdentityKeyPair"]}
{"id": "C117", "title": "RegistrationDone is called once per registration", "statement": "A successful start calls RegistrationDone exactly once if it registered the device and not at all otherwise.", "quantifier": "all starts", "why_tests_cant": "counts events over all paths of a start", "anchors": ["textsecure.go: Setup, registerDevice"]}
{"id": "C118", "title": "Requests are made with the credentials of the account", "statement": "The user name and password of every request are the UUID and the password of the account that was made last.", "quantifier": "all lives of an installation, with failing writes and interruptions", "why_tests_cant": "needs a failed attempt, a failing write and a second attempt in this order", "anchors": ["textsecure.go: Setup, registerDevice", "store.go: storeHTTPPassword, loadHTTPPassword"]}
{"id": "C119", "title": "A linked device receives the account", "statement": "A new device whose public key is given to AddNewLinkedDevice can open the message put for it and finds in it the identity key pair, the number, the UUID and the code of the account, and its profile key; for a key that is no public key nothing is sent.", "quantifier": "all accounts, device keys, codes and random choices", "why_tests_cant": "agreement of two independent computations for all keys", "anchors": ["link.go: AddNewLinkedDevice", "server.go: addNewDevice", "crypto.go: provisioningCipher"]}
{"id": "C120", "title": "The code given to a new device is recent", "statement": "The verification code in a message for a new device was given by the server less than ten seconds before, also if earlier attempts failed.", "quantifier": "all sequences of attempts and passages of time", "why_tests_cant": "the age of the code is not bounded over sequences of attempts; needs any delay", "anchors": ["link.go: AddNewLinkedDevice, code2"]}
{"id": "C121", "title": "Every linked device gets a code of its own", "statement": "No two devices are given the same verification code that the server gave once.", "quantifier": "all sequences of attempts and passages of time", "why_tests_cant": "depends on the interleaving of calls and timers", "anchors": ["link.go: AddNewLinkedDevice, code2"]}
{"id": "C122", "title": "Successful linking means that the device got a code", "statement": "If AddNewLinkedDevice returns no error then the message for the device has a verification code that the server gave.", "quantifier": "all sequences of attempts and all answers", "why_tests_cant": "all answers of the server, including refusals", "anchors": ["server.go: getNewDeviceVerificationCode", "link.go: AddNewLinkedDevice"]}
{"id": "C123", "title": "An unlinked device is gone", "statement": "If UnlinkDevice returns no error then the device is no longer one of the account's.", "quantifier": "all statuses of the answer and all lists of devices", "why_tests_cant": "all answers of the server", "anchors": ["server.go: unlinkDevice", "textsecure.go: UnlinkDevice"]}
{"id": "C124", "title": "The list of linked devices is the server's", "statement": "LinkedDevices returns the devices that the server lists, and an error if the server does not give a list.", "quantifier": "all answers", "why_tests_cant": "all answers of the server", "anchors": ["server.go: getLinkedDevices", "textsecure.go: LinkedDevices"]}
{"id": "C125", "title": "The client and the directory agree on their keys", "statement": "Whoever has the private keys belonging to an attestation and the client compute the same two keys, and the request id the client uses is the one that was sealed for it; no other is accepted.", "quantifier": "all key pairs, request ids, nonces, quotes", "why_tests_cant": "agreement of two independent computations, and authenticity, for all keys", "anchors": ["contactsDiscovery/remoteAttestationUtil.go: remoteAttestationKeys, getRequestId"]}
{"id": "C126", "title": "Only a genuine enclave learns the address book", "statement": "The numbers of the address book can be read from a discovery request only by an enclave whose quote and signature were verified.", "quantifier": "all answers to the attestation request, all address books", "why_tests_cant": "quantifies over everyone who may answer", "anchors": ["contactsDiscovery/remoteAttestationUtil.go: validateAndBuildRemoteAttestation", "contactDiscoveryCrypto/contactDiscoveryCrypto.go: CreateDiscoveryRequest"]}
{"id": "C127", "title": "A malformed attestation is an error", "statement": "Whatever the directory answers to the request for attestations, GetAndVerifyMultiRemoteAttestation returns; the process goes on.", "quantifier": "all answers", "why_tests_cant": "exact characterisation over all answers", "anchors": ["contactsDiscovery/remoteAttestationUtil.go: GetAndVerifyMultiRemoteAttestation", "axolotl/keys.go: NewECPublicKey", "crypto/aesgcm.go: AesgcmDecrypt"]}
{"id": "C128", "title": "Attestations that fail are left out, and if all fail there is an error", "statement": "The attestations returned are exactly those that could be validated; if none could, an error is returned.", "quantifier": "all answers with one to three attestations", "why_tests_cant": "list induction over all answers", "anchors": ["contactsDiscovery/remoteAttestationUtil.go: GetAndVerifyMultiRemoteAttestation"]}
{"id": "C129", "title": "Contacts who have the profile key are let in", "statement": "The access key published with the account attributes is the one that contacts derive from the profile key they were given, so that their sealed messages are accepted.", "quantifier": "all profile keys, identity keys, capabilities and sequences of updates", "why_tests_cant": "agreement of two independent derivations for all keys and histories", "anchors": ["server.go: setAccountAttributes, SetAccountCapabilities", "unidentifiedAccess/unidentifiedAccess.go: DeriveAccessKeyFrom"]}
{"id": "C130", "title": "Strangers are not let in", "statement": "Unless it was chosen to accept sealed messages from everyone, the account attributes demand an access key.", "quantifier": "all sequences of updates of the account", "why_tests_cant": "quantifies over histories of calls", "anchors": ["server.go: setAccountAttributes, SetAccountCapabilities, verifyCode"]}
{"id": "C131", "title": "The capabilities that are remembered are those of the account", "statement": "After any sequence of updates the remembered capabilities are those the server was last given, and an update that failed changed nothing.", "quantifier": "all sequences of updates with any answers", "why_tests_cant": "induction over histories", "anchors": ["server.go: setAccountAttributes, SetAccountCapabilities"]}
{"id": "C132", "title": "A profile is asked for with the access key of its owner", "statement": "The access key presented when asking for a profile is the one derived from the profile key of that user.", "quantifier": "all profile keys and keys of our own", "why_tests_cant": "for all keys", "anchors": ["profiles/profile.go: GetProfile", "unidentifiedAccess/unidentifiedAccess.go: DeriveAccessKeyFrom"]}
{"id": "C133", "title": "Access pairs are usable", "statement": "GetAccessFor gives one pair for each recipient, in order, with the access key of that recipient and a certificate; if there is none to give, an error.", "quantifier": "all lists of recipients, contact tables and certificates", "why_tests_cant": "list induction", "anchors": ["unidentifiedAccess/unidentifiedAccess.go: GetAccessFor, GetAccessForSync, GetTargetUnidentifiedAccessKey"]}
{"id": "C134", "title": "The certificate handed on verifies", "statement": "The certificate given to recipients is the one the server issued, with its signature.", "quantifier": "all certificates", "why_tests_cant": "for all byte strings of the server", "anchors": ["unidentifiedAccess/unidentifiedAccess.go: GetOurCertificate"]}
{"id": "C135", "title": "The choice not to be found by number is honoured", "statement": "An account that was set not to be discoverable by its number is registered as such.", "quantifier": "all choices and all updates", "why_tests_cant": "for all configurations and histories", "anchors": ["server.go: setAccountAttributes, SetAccountCapabilities", "config/config.go: DiscoverableByPhoneNumber"]}
{"id": "C136", "title": "Sealed requests do not say who makes them", "statement": "A request made with an access key is the same bytes whatever the account and the password of the sender; it carries the key so that it can be read.", "quantifier": "all accounts, passwords, addresses, bodies, keys", "why_tests_cant": "non-interference: two runs for all pairs of accounts", "anchors": ["transport/transport.go: PutWithUnidentifiedSender, GetWithUnidentifiedAccessKey"]}
{"id": "C137", "title": "Requests name the configured client and not its proxy", "statement": "Every request names the configured user agent and does not disclose the configured proxy server.", "quantifier": "all configurations and all ten ways of making a request", "why_tests_cant": "for all configurations and requests", "anchors": ["transport/transport.go: newHTTPTransporter"]}
{"id": "C138", "title": "The password goes to the configured host only", "statement": "Every request with the name and the password of the account is made to the host the transporter was set up for, whatever a server answered before.", "quantifier": "all hosts, paths, and answers of the server", "why_tests_cant": "quantifies over everything a server may answer, and uses how addresses are parsed", "anchors": ["transport/transport.go: Get", "profiles/avatars.go: GetRemoteAvatar", "profiles/profile.go: GetProfileE164, GetProfileUUID"]}
{"id": "C139", "title": "Only servers certified by the configured authority are talked to", "statement": "A connection is refused unless the certificate of the server leads to one of the configured roots.", "quantifier": "all certificate chains and all configured roots", "why_tests_cant": "quantifies over all certificates", "anchors": ["transport/transport.go: newHTTPTransporter"]}
{"id": "C140", "title": "Credentials arrive as they are", "statement": "From the Authorization header the receiver reads exactly the name and the password that were given.", "quantifier": "all names without a colon and all passwords", "why_tests_cant": "round trip for all texts", "anchors": ["transport/credentials.go: AsBasic", "transport/transport.go: Get, Put, Del, PostWithHeaders"]}
{"id": "C141", "title": "Being refused credentials is an error", "statement": "GetCredendtails returns credentials if the server gave some, and otherwise an error.", "quantifier": "all statuses and bodies", "why_tests_cant": "all answers of the server", "anchors": ["transport/credentials.go: GetCredendtails"]}
{"id": "C142", "title": "The image shown is the one its owner made", "statement": "If the owner of a profile has posted an image under the profile key, a refresh of the profile gives the contact this image and stores it under the contact's identifier; and an image that a refresh gives was posted under that key.", "quantifier": "all keys, nonces, images, contact tables, disks", "why_tests_cant": "round trip and authenticity for all images and all answers", "anchors": ["profiles/profile.go: GetProfileUUID", "profiles/avatars.go: decryptAvatar, saveLocalAvatar, GetLocalAvatar"]}
{"id": "C143", "title": "Refreshing a profile does not stop the process", "statement": "Whatever the servers answer, GetProfileUUID returns.", "quantifier": "all answers of both servers, all contacts", "why_tests_cant": "exact characterisation over all answers", "anchors": ["profiles/profile.go: GetProfileUUID", "profiles/avatars.go: decryptAvatar, GetRemoteAvatar"]}
{"id": "C144", "title": "Images are kept apart from each other and from everything else", "statement": "Storing the image of one user changes no other file, and what was stored is what is read.", "quantifier": "all identifiers, images, file systems and failures of the disk", "why_tests_cant": "frame property over all paths and identifiers", "anchors": ["profiles/avatars.go: saveLocalAvatar, GetLocalAvatar, GetLocalAvatarPath"]}
{"id": "C145", "title": "A contact that is said to have an image has one", "statement": "If HasAvatar is set then AvatarImg is not empty; an image that cannot be decrypted does not replace the old one.", "quantifier": "all tables with that property and all answers", "why_tests_cant": "invariant over all answers", "anchors": ["profiles/profile.go: GetProfileUUID"]}
{"id": "C146", "title": "An image that was taken away is gone", "statement": "After a refresh from a profile without an image the contact has none.", "quantifier": "all contacts and answers", "why_tests_cant": "for all states", "anchors": ["profiles/profile.go: GetProfileUUID"]}
{"id": "C147", "title": "A profile can be had by number", "statement": "GetProfileE164 returns the profile the server has for the number, with the image its owner posted, or an error.", "quantifier": "all answers, keys and tables", "why_tests_cant": "exact characterisation over all answers", "anchors": ["profiles/profile.go: GetProfileE164", "profiles/avatars.go: decryptAvatar, GetRemoteAvatar"]}
{"id": "C148", "title": "An echo goes back where its message came from", "statement": "With -echo every received message is answered once, with its own text, to the group it was written to, or to its sender if it was written to no group.", "quantifier": "all messages, of no group or of a group of either version", "why_tests_cant": "tests cover messages without a group; the claim is about every kind of message", "anchors": ["cmd/textsecure/main.go: messageHandler"]}
{"id": "C149", "title": "Published messages name where they came from", "statement": "With redis every received message is published, in order, with its text and the address (group or sender) it came from.", "quantifier": "all sequences of messages from any senders", "why_tests_cant": "the wrong name depends on the history of messages, not on one of them", "anchors": ["cmd/textsecure/main.go: messageHandler, sendMessageToRedis"]}
{"id": "C150", "title": "A received message is shown once", "statement": "A message with a text is printed once and given to the hook once, and all its attachments are saved in order.", "quantifier": "all messages and flags", "why_tests_cant": "exact characterisation over all combinations of flags", "anchors": ["cmd/textsecure/main.go: messageHandler, pretty"]}
{"id": "C151", "title": "A message of the command line goes to the one who was named", "statement": "It goes to the contact whose name was given, in whatever order the contacts are, else to the number that was given, and to nobody if nobody was named.", "quantifier": "all contact lists and their permutations, names and texts", "why_tests_cant": "quantifies over all contact lists and orders", "anchors": ["cmd/textsecure/main.go: main"]}
{"id": "C152", "title": "Groups can be given on the command line", "statement": "The fields joined with colons arrive as they were, and an argument with too few fields is refused.", "quantifier": "all fields without colons; all arguments", "why_tests_cant": "for all numbers of fields and all strings", "anchors": ["cmd/textsecure/main.go: main"]}
{"id": "C153", "title": "The attachment that is sent is the file that was uploaded", "statement": "What the gateway hands on as attachment of a request is the file of this request, whatever was uploaded before.", "quantifier": "all histories of requests, files and names", "why_tests_cant": "depends on what earlier requests left behind", "anchors": ["cmd/textsecure/main.go: GatewayHandler, GatewaySend"]}
{"id": "C154", "title": "Success of the gateway means that everything was sent", "statement": "A request is answered with success exactly if its text and its file were handed on to the recipient it names and sending gave no error.", "quantifier": "all requests, states of /tmp and outcomes of sending", "why_tests_cant": "exact characterisation including failures of the disk", "anchors": ["cmd/textsecure/main.go: GatewayHandler, GatewaySend"]}
{"id": "C155", "title": "Uploads touch no files of others", "statement": "A request changes and removes no file it did not make itself, and after sending its own file is gone.", "quantifier": "all requests and states of /tmp", "why_tests_cant": "frame property over all files", "anchors": ["cmd/textsecure/main.go: GatewayHandler, GatewaySend"]}
{"id": "C156", "title": "What the gateway is to send to a group goes to a group", "statement": "If the recipient is the hexadecimal id of a group the message is sent as a message to a group.", "quantifier": "all ids", "why_tests_cant": "for all ids of either length", "anchors": ["cmd/textsecure/main.go: GatewaySend", "groups.go: newGroupID"]}
{"id": "C157", "title": "The identity of a peer can be forgotten through the gateway, and nothing else", "statement": "A DELETE request for a peer removes the identity key saved for that peer; no request removes any other file.", "quantifier": "all methods, peers and storage directories", "why_tests_cant": "quantifies over all requests: that none reaches the file", "anchors": ["cmd/textsecure/main.go: RekeyHandler", "store.go: SaveIdentity"]}
{"id": "C158", "title": "Every JSON request is answered", "statement": "A request with a text is handed on to its recipient with this text; every other one is answered with an error.", "quantifier": "all bodies", "why_tests_cant": "for all JSON values", "anchors": ["cmd/textsecure/main.go: JSONHandler"]}
{"id": "C159", "title": "All groups are listed", "statement": "The gateway lists every group that is stored.", "quantifier": "all contents of the directory of groups", "why_tests_cant": "for all contents, including files that do not parse", "anchors": ["cmd/textsecure/main.go: GroupsHandler"]}
{"id": "C160", "title": "A conversation between two clients is presented as it was held", "statement": "Two clients talk through a server that passes messages on late, in another order or twice. Every text given to SendMessage is accepted with its time; every frame with a new message makes exactly one call of the receiver's message callback, with the text, time, timer and profile key that were sent and the UUID of the sender, and is acknowledged after that; a frame with a repeated message is acknowledged, makes no call and leaves the receiver's state as it was. At every moment the calls a client has made are the messages delivered to it, each once, in the order of their delivery.", "quantifier": "all cryptographic primitives with the laws, all stores and accounts at the start, all schedules of texts of both users and of frames (sealed with the signaling key or not) within the window of kept chains", "why_tests_cant": "unbounded schedules in all orders, through encoding, padding, encryption, ratchets, server, websocket frames and decoding", "anchors": ["textsecure.go: SendMessage, handleReceivedMessage", "sender.go: sendMessage", "server.go: buildMessage, buildAndSendMessage", "websocket.go: StartListening", "handler.go: handleDataMessage"]}
{"id": "C161", "title": "Encrypting and decrypting from several goroutines behaves as if done one after another", "statement": "However the accesses to the stores of any number of goroutines that encrypt and decrypt are interleaved, every call returns what it would have returned if the calls had been made one after another in some order that keeps the order of each goroutine, and what is stored at the end is what that sequence leaves. Stopping the process at any moment leaves what that sequence leaves with one more call cut off. No goroutine waits for ever.", "quantifier": "all numbers of goroutines, all lists of calls of each, all stores at the start, all interleavings of single file accesses, stopped anywhere", "why_tests_cant": "a race detector sees the accesses of the runs it is given; the interleavings are unboundedly many", "anchors": ["axolotl/session.go: SessionEncryptMessage, SessionDecryptWhisperMessage, SessionDecryptPreKeyWhisperMessage", "axolotl/store.go: SessionStore", "store.go: store"]}
{"id": "C162", "title": "Sending from several goroutines never uses a message key twice", "statement": "In an existing session, whatever the number of goroutines that send and however they are interleaved, no two of the messages handed out for a device are at the same position of the same chain, and none at a position used before.", "quantifier": "all numbers of goroutines, all texts, all interleavings, stopped anywhere, all session states that can send", "why_tests_cant": "needs every interleaving and every number of senders", "anchors": ["axolotl/session.go: SessionEncryptMessage", "cmd/textsecure/main.go: main (stress)"]}
{"id": "C163", "title": "Messages of a peer are understood whether or not the application sends to that peer at the same time", "statement": "Which of a peer's messages are accepted does not depend on how their reception overlaps with the sending of a first message to that peer. (FALSE.) It does not depend on what other goroutines do with other peers: each is given what its operations give when nobody else is there.", "quantifier": "all schedules of one sending goroutine and the listener", "why_tests_cant": "the loss needs a particular overlap of building a session with the reception of a first message", "anchors": ["axolotl/session.go: BuildSenderSession", "server.go: buildMessage"]}
{"id": "C164", "title": "Sending while messages arrive does not end the process", "statement": "Sending and receiving at the same time never ends the process. (FALSE; it does not when the goroutines have to do with different peers.)", "quantifier": "all schedules of sending goroutines and the listener", "why_tests_cant": "the crash needs a read of a file between its truncation and its writing", "anchors": ["axolotl/session.go: GetRemoteRegistrationID", "server.go: buildMessage", "store.go: LoadSession, writeFile"]}
{"id": "C165", "title": "Acknowledgements go over the connection of their request", "statement": "The acknowledgements written to a connection are of requests that came over that connection, in the order of arrival, each once and only after the message was handled; the messages of a connection are handled in the order in which the server sent them; starting and stopping do not end the process.", "quantifier": "all sequences of starts, stops, connection attempts that succeed or fail, arrivals and losses, and all interleavings of the loops and writers", "why_tests_cant": "needs all interleavings over several connections", "anchors": ["websocket.go: StartListening, StopListening, sendAck, writeWorker"]}
{"id": "C166", "title": "After StopListening nothing more is handled", "statement": "After StopListening has returned nil, at most the message that was being handled at that moment is handled, until StartListening is called again.", "quantifier": "all states of the listener, all later arrivals and interleavings", "why_tests_cant": "for all moments at which stop can be called", "anchors": ["websocket.go: StopListening, StartListening"]}
{"id": "C167", "title": "The key of a message is gone once the message has been read or handed out", "statement": "Once a message has been read, nothing stored about the peer contains its message key or a chain key it can be derived from, at any later time; and once a message has been handed to the caller to be sent, nothing the sender has stored about the peer contains its key either.", "quantifier": "all conversations (sends, losses, reorderings, repetitions, injected bytes) and every later moment", "why_tests_cant": "a test can look at one stored record after one message; that the key is in no chain of any stored state after every later history needs an invariant over all of them", "anchors": ["axolotl/session.go: sessionState.decrypt, getOrCreateMessageKeys, setMessageKeys, setReceiverChainKey, setSenderChainKey", "axolotl/session.go: archiveCurrentState, SessionCipher.decrypt"]}
{"id": "C168", "title": "Two people who write to each other first at the same time can go on talking", "statement": "If two clients that never wrote to each other build a session with each other at the same time and then write in turns at the same time, with nothing lost, repeated or out of order, every text is read.", "quantifier": "all pairs of clients, all numbers of rounds in which both write before they receive", "why_tests_cant": "needs the states of both clients through several rounds in which the messages cross; the tests let one side begin", "anchors": ["axolotl/session.go: SessionCipher.decrypt, sessionState.decrypt, getOrCreateChainKey, promoteState", "axolotl/session.go: BuildReceiverSession, BuildSenderSession"]}
{"id": "C169", "title": "An archived session is taken up again when the peer goes on using it", "statement": "When a client's session with a peer has been archived behind other states and the peer's next message belongs to it, the message is read and the conversation goes on in that session: every later message whose chain is kept is read, in whatever order, and sending does not fail.", "quantifier": "all conversations before and after, all places in the record, all states in front of it that refuse the message", "why_tests_cant": "the state in front of the archived one is changed by the attempt and the archived one is moved; that nothing of the conversation is lost by this needs the invariant of the whole conversation", "anchors": ["axolotl/session.go: SessionCipher.decrypt, promoteState, archiveCurrentState"]}
{"id": "C170", "title": "Conversations do not disturb each other", "statement": "However many devices hold conversations with each other, and however their beginnings, messages, answers, losses, repetitions and injected bytes are interleaved, every step has the outcome it would have if the two devices concerned were alone: the session is built, sending works, and each message that is deliverable in its conversation is read as the text that was sent.", "quantifier": "all numbers of devices and conversations, all schedules, all primitives that satisfy the laws of crypto_ok; conversations of one device are with different (name, device) pairs, names that are equal have equal identity keys, a one-time prekey is handed out once", "why_tests_cant": "the stores are shared by all conversations of a device (prekeys, identities, sessions); that no interleaving of their writes harms another conversation is a statement about all of them", "anchors": ["axolotl/session.go: BuildSenderSession, BuildReceiverSession, SessionEncryptMessage, SessionDecryptWhisperMessage, SessionDecryptPreKeyWhisperMessage", "store.go: LoadSession, StoreSession, RemovePreKey, SaveIdentity, IsTrustedIdentity"]}
{"id": "C171", "title": "The helper is found where it is installed", "statement": "If the helper program is on the PATH, is a program ./crayfish in the working directory, or was built in ./crayfish/target/debug, it is started, and looking for it does not change the working directory.", "quantifier": "all combinations of what is on the PATH and in the working directory", "why_tests_cant": "a test runs on a machine with the helper in one place; the claim is about every layout, including those in which an unrelated file or directory of the name exists", "anchors": ["crayfish/backend.go: Run (120-148)"]}
{"id": "C172", "title": "Starting the client does not crash, however its goroutines are scheduled", "statement": "Whatever the order in which Setup, the helper's goroutines, incoming sealed messages, lost connections and a Stop get their turn, the process does not end; a configuration that cannot be read is reported as an error.", "quantifier": "all interleavings of the steps of Setup, registerDevice, Run, StartListening, StartWebsocket, HandleEnvelope and Stop, all results of reading the configuration", "why_tests_cant": "the failures are races with a sleep of one second and pointers that are still nil; a test sees the one schedule the machine happens to choose", "anchors": ["textsecure.go: Setup, registerDevice", "crayfish/backend.go: Run, StartListening, StartWebsocket", "crayfish/envelope.go: HandleEnvelope", "crayfish/register.go: CrayfishRegister"]}
{"id": "C173", "title": "Sealed messages are opened for the account of the client", "statement": "Every sealed message is handed to the helper together with the identifier of the account the client is registered as at that time.", "quantifier": "all interleavings of starting, registering, reconnecting and receiving", "why_tests_cant": "the identifier is copied once in a goroutine that races with registration; which value is used afterwards depends on the order of all earlier steps", "anchors": ["crayfish/backend.go: Run (115-118)", "crayfish/envelope.go: HandleEnvelope", "textsecure.go: registerDevice"]}
{"id": "C174", "title": "The verification code the user typed is the one that is verified", "statement": "The request made of a verification code denotes that code: codes as they are written in the message (123-456 or 123456) are accepted, and different codes are different requests.", "quantifier": "all codes, numbers, names, passwords and signaling keys", "why_tests_cant": "a property of all strings; examples cannot show that no two codes are confused", "anchors": ["crayfish/register.go: CrayfishRegisterWithCode (45-59)"]}
{"id": "C175", "title": "Registration succeeds only if the helper answered an identifier", "statement": "CrayfishRegisterWithCode returns an account only if the helper's answer contains an identifier of 16 bytes, and the account's identifier is the canonical text of these bytes; every other answer is an error.", "quantifier": "all JSON answers and all codes", "why_tests_cant": "the answers that go wrong are those nobody wrote a test for: a refusal, null, an array that is too short", "anchors": ["crayfish/register.go: CrayfishRegisterWithCode (64-86)", "crayfish/messages.go: CrayfishWebSocketResponse_VERIFY_REGISTER_MESSAGE"]}
{"id": "C176", "title": "Nothing the helper sends ends the process", "statement": "Any JSON message of the helper is handled or ignored; it does not crash the client, and a waiting caller gets exactly the answers that are no acknowledgements, unchanged.", "quantifier": "all decoded messages, with and without a caller waiting", "why_tests_cant": "members that are missing are nil pointers; the claim is about every combination of members", "anchors": ["crayfish/backend.go: StartWebsocket (313-346), handleCrayfishRequestMessage, handleCrayfishResponseMessage"]}
{"id": "C177", "title": "Stop stops the helper", "statement": "After Stop the helper process has been interrupted and the listener ends: at most the connection being made is still made.", "quantifier": "all interleavings of starting, registering, reconnecting, receiving and stopping", "why_tests_cant": "Stop may come at any moment of the start; the moments at which it has no effect are not those a test chooses", "anchors": ["crayfish/backend.go: Stop, StopListening, StartListening"]}
{"id": "C178", "title": "The profile key kept for a contact is the one that contact announced", "statement": "After a message of a contact that announces a new profile key, the key kept for that contact is the announced one and the keys of all other contacts are as before; no other message changes a key.", "quantifier": "all messages, senders, sealed or not, states and outcomes of writing the contacts", "why_tests_cant": "needs all contents and senders, including synchronisation messages and their copies of sent messages", "anchors": ["textsecure.go: handleFlags", "contacts/contacts.go: UpdateProfileKey", "handler.go: handleMessage, handleDataMessage", "sync.go: handleSyncSent"]}
{"id": "C179", "title": "What crosses the network and what is kept is what the protocol says, under keys the parties drew", "statement": "In a conversation, every message on the network is the byte string obtained from one fixed formula (ratchet key, counters, text encrypted under the message key, tag over identities and body, wrapped with the prekey data for the first ones) and what a party has stored at any moment is exactly: its identity key, its current ratchet key and root key, its next sending chain key, for each of the last five ratchet keys of the peer the next chain key and the message keys of places passed over, its signed prekey and the one-time prekeys not yet used, besides values everybody can see. Nothing else derived from secrets is kept or sent.", "quantifier": "all key values and primitives, all conversations (sends, losses, reorderings, repetitions, injected bytes), every moment, both parties", "why_tests_cant": "a test can compare one message or one stored record with an expected value; that no stored field at any moment of any history is anything but one of these values is a statement about all of them", "anchors": ["axolotl/session.go: SessionEncryptMessage, decrypt, getOrCreateMessageKeys, setReceiverChainKey, addReceiverChain", "axolotl/ratchet.go: initializeSenderSession, initializeReceiverSession", "axolotl/messages.go: newWhisperMessage, newPreKeyWhisperMessage", "store.go: StoreSession, RemovePreKey"]}
{"id": "C180", "title": "Exactly which texts somebody can read who sees the network and copies stores", "statement": "Somebody who sees every message and copies the stores of either party at any moments can compute the text of a message exactly if those copies contain its message key, an earlier chain key of its chain, or the ratchet key and root key its chain comes from (followed back through the ratchet). Somebody who has no copy can read nothing.", "quantifier": "all conversations, all messages, all finite sets of moments at which stores are copied, all ways of computing with the values seen (encrypting, decrypting with a known key, deriving, hashing, Diffie-Hellman with a known private key)", "why_tests_cant": "quantifies over every computation of an attacker on everything ever seen; running the code only shows that the intended reader can read", "anchors": ["axolotl/ratchet.go: initializeSenderSession, initializeReceiverSession, calculateDerivedKeys, DeriveSecrets, createChain, getNextChainKey, getMessageKeys", "axolotl/session.go: encrypt, decrypt"]}
{"id": "C181", "title": "Texts read before a store was copied stay unreadable", "statement": "Once a message has been read, copying the stores of both parties at any later moment does not let anybody compute its text, provided the session was begun with a one-time prekey.", "quantifier": "all conversations, messages, and all sets of later moments at which stores are copied", "why_tests_cant": "a negative statement about all computations an attacker may do with all that is stored afterwards", "anchors": ["axolotl/ratchet.go: initializeSenderSession (addReceiverChain with the own sending chain key)", "axolotl/session.go: addReceiverChain, removeMessageKeys", "axolotl/session.go: SessionCipher.SessionDecryptPreKeyWhisperMessage (RemovePreKey)"]}
{"id": "C182", "title": "After two changes of key copied stores are of no more use", "statement": "If every copied store was taken while its owner was at least two ratchet keys behind the one a message is sent with, the message cannot be read by whoever made the copies; and with copies both at least three keys before and after the reading of the message it cannot either. One key behind is not enough: such a copy opens the next chain.", "quantifier": "all conversations, messages, and sets of moments at which stores are copied", "why_tests_cant": "a negative statement about all computations an attacker may do; needs the fresh ratchet key to enter every later root key", "anchors": ["axolotl/session.go: getOrCreateChainKey", "axolotl/ratchet.go: createChain, rootKey"]}
{"id": "C183", "title": "A tag can only be had for what was sent", "statement": "As long as copied stores do not expose the place of a message, whoever sees the network cannot compute the authentication tag of any other body for that place: the only tags under that key that can be had are those of the message actually sent there, in the same direction.", "quantifier": "all conversations, all places, all bodies, all sets of copied stores that do not expose the place", "why_tests_cant": "unforgeability against all computations; a test can only try particular alterations", "anchors": ["axolotl/messages.go: getMac, verifyMAC, newWhisperMessage", "axolotl/session.go: SessionEncryptMessage"]}
{"id": "C184", "title": "Every message made and taken belongs to a place in a session of one's own", "statement": "For any number of clients, whatever bundles the server hands out and whatever the network delivers: each message a client makes carries the tag of a definite place (agreement, ratchet keys, number) in a session it has, and each message a client takes does too. Whoever could compute the tag of a taken message from everything sent before and from any lost keys or session values has either exposed exactly that place, or the message is one that the owner of the session's identity key has made for this client's identity key, with this text.", "quantifier": "all numbers of clients, all executions (calls interleaved at will, also cut off), all bundles and incoming bytes, all sets of lost private keys and session values", "why_tests_cant": "quantifies over all behaviours of server and network and over all computations of an attacker", "anchors": ["axolotl/session.go: BuildSenderSession, BuildReceiverSession, SessionEncryptMessage, SessionDecryptWhisperMessage, SessionDecryptPreKeyWhisperMessage", "axolotl/ratchet.go: initializeSenderSession, initializeReceiverSession, createChain, getNextChainKey, getMessageKeys", "axolotl/messages.go: getMac, verifyMAC"]}
{"id": "C185", "title": "What is taken in a session with a client was sent by that client", "statement": "Whatever server and network do, and also if other private keys are lost (the receiver's own identity key and one-time prekeys among them): as long as no signed prekey and no base key is lost, a text that a client takes in a session with the identity key of another client was sent by that client, earlier, in a session with the receiver's identity key. Where a signed prekey is lost, its owner can be made to take messages in the name of anybody.", "quantifier": "all numbers of clients, all executions, all bundles and incoming bytes, all sets of lost keys without signed prekeys and base keys", "why_tests_cant": "authenticity against an active attacker is a statement about all computations", "anchors": ["axolotl/session.go: BuildReceiverSession, SessionDecryptPreKeyWhisperMessage, decrypt", "axolotl/ratchet.go: initializeReceiverSession", "axolotl/messages.go: getMac, verifyMAC"]}
{"id": "C186", "title": "The key of a text is known only to the two ends of the session", "statement": "Whatever server and network do: the cipher key of a message that a client sends can be computed exactly by those who have exposed its place; if the session is with the identity key of another client, and neither that key nor a base key or signed prekey is lost, nobody else can compute it, from all messages of the whole execution. (This rests on the identity keys alone: also if the server makes up the signed prekey.)", "quantifier": "all numbers of clients, all executions, all bundles and incoming bytes, all sets of lost keys as described", "why_tests_cant": "secrecy against an active attacker is a statement about all computations", "anchors": ["axolotl/session.go: BuildSenderSession, SessionEncryptMessage", "axolotl/ratchet.go: initializeSenderSession, getMessageKeys"]}
{"id": "C187", "title": "What is reported under a name comes from the owner of the key saved for it", "statement": "A client that does not trust every key: whatever it reports as received from a name came in a session with the identity key saved for that name, that key stays saved, and (as in C185) its owner sent the text. FALSE if the process is stopped between the two writes with which a session is begun: the session stays without its identity key, another key can be saved for the name, texts of the owner of the first key are still reported under the name, and answers go to that owner.", "quantifier": "all numbers of clients, all executions in which no call of the receiving client was cut off; an execution with one call cut off for the refutation", "why_tests_cant": "an invariant of all stored sessions over all executions; the failing case needs a stop between two particular writes", "anchors": ["axolotl/session.go: BuildSenderSession, BuildReceiverSession", "store.go: IsTrustedIdentity, SaveIdentity, StoreSession"]}
{"id": "C188", "title": "A conversation survives stops of either process at any write", "statement": "Two clients that talk over a session begun from a prekey bundle may each be stopped in any call of SessionEncryptMessage, SessionDecryptWhisperMessage or SessionDecryptPreKeyWhisperMessage after any number of that call's writes to the store, and be started again with what is stored, any number of times. Calls that are not stopped then behave as in C02: sending succeeds, every message that was handed out and is delivered for the first time decrypts to its text, also when an earlier delivery of it was stopped before its last write, and repetitions are refused without a write. Only two things are lost: a message whose encryption was stopped, and the text of a delivery stopped after its last write. The exception is a stop between the removal of the one-time prekey and the writing of the session: after it none of the messages of the session can be read (C15).", "quantifier": "for all crypto primitives meeting the stated laws, all setups, all schedules of sends, deliveries and injected bytes, each carried out or cut off after any number k of writes", "why_tests_cant": "the stops would have to be placed between every pair of writes of every call in every reachable state of both ratchets", "anchors": ["axolotl/session.go: SessionEncryptMessage, SessionDecryptWhisperMessage, SessionDecryptPreKeyWhisperMessage, BuildReceiverSession", "axolotl/store.go: SessionStore, PreKeyStore, IdentityStore"]}
{"id": "C189", "title": "Messages are byte for byte those of the published protocol", "statement": "Any client of the published X3DH / Double Ratchet message format understands what SessionEncryptMessage hands out at the start of a session: after BuildSenderSession with a signed prekey and a one-time prekey, the n-th message is version byte 0x33, the prekey id, base key, identity key, SignalMessage, registration id and signed prekey id with the published protobuf tags, and the SignalMessage holds ratchet key, counter n, previous counter 0, the AES-CBC ciphertext and the first eight bytes of the HMAC over both identity keys and the message, under the keys of the published key schedule; after a first prekey message has been received, the n-th answer is the SignalMessage of the published schedule likewise. FALSE when the bundle had no one-time prekey: the optional prekey id is then written as 0 and not left out, so that a receiver that looks up every id that is present looks for prekey 0.", "quantifier": "for all crypto primitives meeting the stated laws, all stores, bundles, random draws, all lists of texts (below 2^60 bytes, at most 2^32 of them), every position in the list; a concrete bundle for the refutation", "why_tests_cant": "a round trip between two clients of this library is unchanged by any mistake both sides make alike: a wrong info string, a swapped half of the derived keys or a wrong tag passes every test that has no foreign client", "anchors": ["axolotl/ratchet.go: initializeSenderSession, initializeReceiverSession, createChain, getMessageKeys, DeriveSecrets", "axolotl/messages.go: newWhisperMessage, newPreKeyWhisperMessage", "axolotl/session.go: BuildSenderSession, SessionEncryptMessage", "axolotl/protobuf/WhisperTextProtocol.proto"]}
{"id": "C190", "title": "The prekeys the server was told can be used", "statement": "Whatever Setup uploaded is in the store with its private keys from then on: after any number of starts, each carried out or stopped after any of its writes, and at any time after the upload, every prekey that was told can be loaded and has the public key that was told and the private key drawn with it, nothing stored was left out, and the record of the signed prekey is stored under its id. FALSE for the signed prekey if its write fails: generateSignedPreKey ignores the error, Setup uploads the key and succeeds, its private half is lost, no later start makes another, and no first message of a peer can be read.", "quantifier": "for all crypto primitives meeting the stated laws, all sequences of starts and stops from an empty disk, all random draws, all outcomes of writes and answers; a concrete start for the refutation", "why_tests_cant": "the stops would have to be placed after each of some hundred writes in all combinations of repeated starts; the failing write leaves no trace in the result of Setup", "anchors": ["prekeys.go: generatePreKeys, generateSignedPreKey, generatePreKeyState", "textsecure.go: Setup, registerDevice", "store.go: StorePreKey, StoreSignedPreKey, LoadPreKey, LoadSignedPreKey"]}
{"id": "C191", "title": "Each text that is sent is taken at most once, whatever the network does", "statement": "Any number of clients exchange messages over any server and network, which may repeat, delay, reorder, drop and make up anything. As long as what a client accepts from a peer is accepted by the newest session with that peer, the base keys it draws are not in use, and no more than 40 sessions with the peer are kept, two texts that it takes from the peer come from two different calls of SessionEncryptMessage of the owner of the peer's identity key: nothing is taken twice, also not when the message is wrapped anew as a first message or as a later one, or after the session was built again, unless the network has the keys of one of the two places. FALSE when older sessions accept messages: a text that was sent once is then taken twice. Even then a text that was sent once is taken no more often than once and once more for each other message that an older session accepted.", "quantifier": "all crypto primitives meeting the stated laws, all numbers of clients, all executions, all bundles and incoming bytes, all pairs of accepted messages, all leaks; an execution with two sessions for the refutation", "why_tests_cant": "a statement about all pairs of accepted messages in all executions against all computations of the attacker; the failing case needs three messages in a particular order over two sessions", "anchors": ["axolotl/session.go: SessionDecryptWhisperMessage, SessionDecryptPreKeyWhisperMessage, decrypt, BuildReceiverSession", "axolotl/session.go: getOrCreateMessageKeys, getOrCreateChainKey, hasSessionState, archiveCurrentState, promoteState"]}
{"id": "C192", "title": "The attachment that is sent is all that its reader gives", "statement": "SendAttachment, SendVoiceNote and their group versions upload exactly the content of the io.Reader they are given, in whatever portions the reader hands it out and whatever buffers are used, and reading comes to an end when the reader does; the type is that of the first 1024 bytes of the content (audio/mpeg for voice notes), and the recipient gets that content and that type. If the reader fails at any byte and goes on failing, nothing is uploaded and the call fails. FALSE for a reader that fails once within the first 1024 bytes and then ends: MIMETypeFromReader ignores the error, and what was cut off is sent as if it were all.", "quantifier": "for all readers, contents, portions, buffer sizes, crypto primitives meeting the stated laws and servers; a concrete reader for the refutation", "why_tests_cant": "the ways in which a reader can cut its content into portions cannot be enumerated; the lost error needs a reader that does not repeat it", "anchors": ["textsecure.go: MIMETypeFromReader, SendAttachment, SendVoiceNote", "groups.go: SendGroupAttachment, SendGroupVoiceNote", "attachments.go: uploadAttachmentV3, uploadVoiceNote"]}
{"id": "C193", "title": "A first message is taken under one name and device only", "statement": "Who sent a message is told by the server (source and device of the envelope). Once a client has taken a first message that names one of its one-time prekeys, no first message that names the same prekey begins a session with it any more, under whatever name and device the server delivers it and whatever calls and stops happen in between: it is refused and nothing is stored. The code does not prevent this for messages without a one-time prekey: one text that was sent once is taken as a message of two devices of the sender and of a third person.", "quantifier": "for all crypto functions, clients, stores, executions of any number of clients with calls and stops at any write, and all names, devices and messages", "why_tests_cant": "the ways in which a server can label and repeat messages between the calls of a client cannot be enumerated", "anchors": ["axolotl/session.go: BuildReceiverSession, SessionDecryptPreKeyWhisperMessage, hasSessionState", "textsecure.go: handleReceivedMessage"]}
{"id": "C194", "title": "One change to a group by an administrator has exactly its effect", "statement": "When an administrator asks for one thing of a group of the second version in which nobody is listed twice (remove members, give roles, take back invitations, set title, avatar, description, timer, access rules or link password, turn down or approve requests to join, switch announcements), and the thing makes sense for the group, then the group is afterwards the group with that change and the new revision and nothing else in it differs; the change is accepted exactly if the resulting group keeps the rules for groups, and it always is within the limits on sizes.", "quantifier": "for all groups, administrators, single changes, revisions, validators and proof systems", "why_tests_cant": "groups, roles and changes cannot be enumerated, and that nothing else differs concerns every field", "anchors": ["groupsv2/groupModify.go: ModifyGroup, getSourceUuid", "groupsv2/groupChange.go: Apply*", "groupsv2/groupAuth.go", "groupsv2/groupValidator.go"]}
{"id": "C195", "title": "Somebody can leave a group, decline an invitation, withdraw a request, or ask to join", "statement": "Whoever removes just themselves from a group of the second version (as member, invited person or person who asked to join), or asks to join with the password of the link, should be told that this worked. This is FALSE of the code: the source of the change is looked up in the group after the change, because the copy that is meant to be the group before shares its memory, so that the call is always answered as unauthorized; yet the person is already out of the group that the call was made on, under the old revision, and a request to join is put on a list that is not part of the group.", "quantifier": "for all groups in which nobody is listed twice, all people in them, all revisions, validators and proof systems", "why_tests_cant": "the combinations of groups, people and their parts in it cannot be enumerated", "anchors": ["groupsv2/groupModify.go: ModifyGroup, getSourceUuid", "groupsv2/groupChange.go: ApplyDeleteMembers, ApplyDeleteMembersPendingProfileKey, ApplyDeleteMembersPendingAdminApproval, ApplyAddMembersPendingAdminApproval"]}
{"id": "C196", "title": "Read marks, receipts and typing notices reach the application with what they say", "statement": "Every read mark that another own device sends reaches the application, in order, with the sender and time of the message that was read. A receipt reaches the application once, with the first of its times; a typing notice with the time of the envelope. It is FALSE that the application learns all that these say: of a receipt for several messages all but the first are lost, a receipt that a message was viewed is announced as one that it was sent, and starting to type cannot be told from stopping.", "quantifier": "for all lists of read marks, receipts for any number of messages and typing notices, in the encoding that other clients send, and all senders and times", "why_tests_cant": "lists of marks and times cannot be enumerated; tests with receipts for a single message do not show the loss", "anchors": ["handler.go: handleMessage, handleReceiptMessage, handleTypingMessage", "sync.go: handleSyncMessage, handleSyncRead", "protobuf/SignalService.proto: SyncMessage.Read, ReceiptMessage, TypingMessage"]}
{"id": "C197", "title": "A registered installation keeps its account and its store", "statement": "Once an installation has registered, no start of it changes its number, its UUID, its name if it has one, or any file of its store, whatever the server, the clock and the application answer, however many writes fail, and wherever each of any number of starts is cut off.", "quantifier": "for all stores and configurations of a registered client, all answers and failures, and any number of starts cut off anywhere", "why_tests_cant": "the answers, failures and points of interruption of a series of starts cannot be enumerated", "anchors": ["textsecure.go: Setup, registerDevice, renewSenderCertificate", "config.go: loadConfig, saveConfig", "profile.go: GenerateProfileKey, UpdateProfile, GetProfileAndCredential"]}
{"id": "C198", "title": "A message that the server accepts is shown by every device of the recipient, also by devices added or set up anew", "statement": "If the key server hands out the keys of the recipient's present devices and the message server accepts a request only when it has exactly one message for each present device with that device's present registration id, then SendMessage returns success only if, whatever was answered to earlier requests, the accepted request contains for each device a message that this device decrypts and gives to its message handler once, with the text, expiry timer and timestamp of the caller. If the server also names missing, superfluous and stale devices, the message gets through to all devices after at most three requests, whatever mixture of current, stale and absent sessions the sender starts with; and the sessions left by any conversation qualify as current.", "quantifier": "All crypto primitives satisfying the algebraic laws, all servers meeting the stated conditions, all recipients (device lists, stores, registration ids), all sender states and session records, texts, timers, fuel; all conversation schedules", "why_tests_cant": "Any mixture of reinstalled, new, removed and unchanged devices and any sequence of server answers; end to end through session building, encryption, retry loop, decryption and content handling with arbitrary keys.", "anchors": ["server.go 883-956 buildAndSendMessage", "server.go 813-863 buildMessage", "server.go 890-928 mismatched and stale devices", "prekeys.go 161-213", "sender.go 13-61", "axolotl/session.go 523-572", "textsecure.go 528-603"]}
{"id": "C199", "title": "What is written to a person goes only to the owner of the identity key that is saved for them", "statement": "As long as identities are checked and a saved key is only removed when no session under that name is left, every message that SendMessage puts on the network for a name is encrypted for the identity key saved for that name, whatever the key server answers, and if the owner's private keys are not given away nobody else ever learns its message key, whatever sessions are ended, keys renewed and messages exchanged before and afterwards. While the key server gives another key for the name, messages go only to devices with which there was a session before, no session is begun, the saved key stays, and when some device has no session nothing is put on the network and the call fails.", "quantifier": "for all servers, all numbers of clients, all interleavings of calls, interrupted calls of others, ended sessions, forgotten keys and renewed prekeys before and after, all texts and devices", "why_tests_cant": "the answers of a hostile server, the histories before and after the call and the computations of an attacker cannot be enumerated", "anchors": ["server.go: buildMessage, buildAndSendMessage", "prekeys.go: makePreKeyBundle", "axolotl/session.go: BuildSenderSession, SessionEncryptMessage", "store.go: IsTrustedIdentity, SaveIdentity", "sender.go: sendMessage", "cmd/textsecure/main.go: RekeyHandler"]}
{"id": "C200", "title": "Messages stay authentic, secret and fresh over the whole life of installations, with ended sessions and renewed keys", "statement": "Any number of installations call the session API, end sessions with one device or all, remove saved identities and store new prekeys and signed prekeys at any time and in any order; the network is the attacker. Every text that is taken as coming from the owner of an identity key whose private key is not given away was sent by that owner to the taker with the same bytes, keys of messages to such an owner stay unknown to everybody else, a deleted session accepts nothing, and a first message that named a used one-time prekey never begins a session again until a prekey is stored anew under its number.", "quantifier": "for all numbers of installations and all sequences of calls, deletions, renewals and interruptions, all attackers within the symbolic model", "why_tests_cant": "arbitrarily long interleavings of several installations with a computing adversary cannot be enumerated", "anchors": ["axolotl/session.go: BuildReceiverSession, BuildSenderSession, SessionDecryptPreKeyWhisperMessage", "store.go: DeleteSession, DeleteAllSessions, StorePreKey, StoreSignedPreKey", "textsecure.go: EndSession, handleFlags"]}
{"id": "C201", "title": "What an application shows as a message from a person was asked for by that person's application, word for word", "statement": "Any number of applications send messages, end sessions, send receipts and copies, receive envelopes, renew keys and delete sessions, in any order; the servers and the network answer and deliver what they like. When an application that checks identities, removes a saved key only when it has no session under the name and is not cut off within a reception hands a message to its MessageHandler as coming from a name, an identity key is then saved for that name, and if its owner's private keys are not given away, an application of that owner earlier asked, with SendMessage or EndSession, for a message with the same text, timer, time, profile key, group and attachment, for a name under which (if it is as careful) it has the key of the application that shows the message. Saved keys change only when the application removes them. Excluded: sealed-sender envelopes, which an external program opens and which are shown without a source.", "quantifier": "for all numbers of applications, all sequences of sends, ends, receptions, interruptions of others and renewals, all servers, all envelopes, all attackers within the symbolic model", "why_tests_cant": "histories of several applications with a computing adversary on the network and hostile servers cannot be enumerated", "anchors": ["textsecure.go: SendMessage, EndSession, handleReceivedMessage, handleFlags", "handler.go: handleMessage, handleDataMessage", "sender.go: sendMessage", "server.go: createMessage, buildMessage", "axolotl/session.go: SessionEncryptMessage, SessionDecryptWhisperMessage, SessionDecryptPreKeyWhisperMessage", "store.go: IsTrustedIdentity, SaveIdentity"]}
{"id": "C202", "title": "Everything an application puts on the network can be read only by the owner of the key saved for its recipient, whatever any application does before and after", "statement": "In any run of any number of applications, servers and network as in the previous property: every message that an application that checks identities and removes a saved key only without sessions puts on the network, with SendMessage, EndSession or any other sending, is encrypted for the identity key saved for the recipient's name (the own name for copies to own devices), its text is one that was to be sent to that name, and if the owner's private keys are not given away nobody else can compute its message key from everything that is sent in the whole run, before or after.", "quantifier": "for all numbers of applications, all runs, all servers, all events and messages in them, all attackers within the symbolic model", "why_tests_cant": "the whole later run of all applications and the computations of an attacker cannot be enumerated", "anchors": ["sender.go: sendMessage", "server.go: buildAndSendMessage, buildMessage", "textsecure.go: SendMessage, EndSession", "axolotl/session.go: BuildSenderSession, SessionEncryptMessage", "store.go: IsTrustedIdentity, SaveIdentity"]}
{"id": "C203", "title": "No text is taken twice over the whole life of an installation, through deleted and renewed sessions", "statement": "In any run of any number of installations in which an attacker on the network stores, replays, reorders and relabels everything and computes what it can: two texts that a client takes from a device of a peer at different times were encrypted in two different calls by the owner of that peer's identity key, although the client may in between delete its sessions with the peer, begin new ones, remove saved keys, replace prekeys, crash and lose unfinished calls. It holds if sessions of the peer are begun with one-time prekeys and new keys are drawn each time, and, without one-time prekeys, as long as no session with the device is deleted.", "quantifier": "for all runs and all their lengths, all clients, devices, texts, and pairs of messages, all attackers within the symbolic model", "why_tests_cant": "that a replay is refused at every later time and after every course of deletions and renewals cannot be settled by trying some", "anchors": ["axolotl/session.go: SessionDecryptPreKeyWhisperMessage, SessionDecryptWhisperMessage, Encrypt, hasSessionState", "store.go: RemovePreKey, DeleteSession, DeleteAllSessions"]}
{"id": "C204", "title": "A message is shown no more often than it was encrypted for", "statement": "In any run of any number of applications, with any servers and an attacker on the network as in the previous properties: if an application that checks identities shows two messages as from the same device of a person, in two receptions, then they were encrypted in two different steps, each within a call of SendMessage or EndSession in which the application of the owner of the key saved for that person was asked for exactly that message; so replaying what is on the network never makes a message appear again. It holds under the conditions of the previous property. It is not bounded by the number of calls: a server that answers a request with 409 without naming a device makes one call of SendMessage encrypt the message twice, and the receiver shows it twice.", "quantifier": "for all numbers of applications, all runs, all servers, all pairs of receptions in them, all attackers within the symbolic model", "why_tests_cant": "that no course of replays, crashes and renewed sessions makes an application show a message again cannot be settled by trying some", "anchors": ["textsecure.go: handleReceivedMessage, SendMessage, EndSession", "handler.go: handleMessage", "server.go: buildAndSendMessage", "axolotl/session.go: SessionDecryptPreKeyWhisperMessage, SessionDecryptWhisperMessage, SessionEncryptMessage"]}
{"id": "C205", "title": "The files follow the whole life of an installation", "statement": "After a registration that succeeded, possibly after attempts that were cut off, whatever the installation goes through (calls of the session API carried out or cut off between writes, later starts, deleted sessions, removed saved keys, new prekeys and signed prekeys), every load of a session, saved key, prekey, signed prekey, identity or registration id from its files gives what was last stored, and nothing of what was deleted. Later starts never register or upload again and give the identity of the registration.", "quantifier": "all primitives, configurations, numbers of installations, inputs of starts and sequences of such events", "why_tests_cant": "an unbounded sequence of events of six kinds over four directories of encrypted files, with crashes", "anchors": ["store.go: 95-457", "textsecure.go: Setup", "textsecure.go: registerDevice", "prekeys.go: generatePreKeys"]}
{"id": "C206", "title": "Questions about a group carry today's credential, for that group and that account", "statement": "Every question a client asks the server of groups carries as user the public parameters of the group in question and as password a presentation, for that group, of a credential the server issued for the very day of the question, received as the client's own UUID; if there is no such credential nothing is asked. From the day on which the credentials were fetched to seven days later the question is asked.", "quantifier": "for all clocks (the two readings may differ), answers of the servers, contents of the credential cache, master keys and behaviours of the zkgroup library", "why_tests_cant": "the credential cache is filled once per process and its use depends on the day; a test sees one day and one server", "anchors": ["groupsv2/groupsv2api.go:28-68", "groupsv2/credentials.go:34-80", "groupsv2/groupsv2.go:163-176", "groupsv2/groupsv2.go:378-381"]}
{"id": "C207", "title": "A running client follows its groups", "statement": "After a message of a group arrived that belongs to a newer revision than the client has, messages it sends to the group go to the members the server has in that revision: those removed get nothing more, those added do. This holds however long the process has been running.", "quantifier": "for all groups, changes on the server, days, sequences of received messages, member lists, joins and sends without a new start of the program", "why_tests_cant": "what goes wrong shows only after the process has run for more than a week; it depends on the credential cache, the group files and the order of calls together", "anchors": ["groupsv2/credentials.go:38-54", "groupsv2/groupsv2api.go:28-35", "groupsv2/groupsv2.go:198-318", "groups.go:205-251"]}
{"id": "C208", "title": "A received message makes the client write only to the devices of its own account", "statement": "Whatever envelope is received, the client fetches keys and posts messages because of it only if its content is a synchronisation message that asks for contacts or groups, or that reports a verified identity. The answer to a request goes to the own account, whoever asked, so that contacts and groups are never sent to anybody else; for the report only an empty null message of fixed bytes is sent. FALSE as stated for the report: handleSyncMessage does not look at who sent it, so a stranger makes the client fetch the keys of, begin sessions with and write to a third person of the stranger's choice, and have that person's key saved as trusted.", "quantifier": "for all envelopes, stores, device lists, contacts, servers (any answers) and randomness; a witness for the part that is false", "why_tests_cant": "Tests send a few messages and look at the handlers; that no content of any envelope causes other requests, against any server, ranges over all contents and answers, and the tests do not send synchronisation messages from other accounts.", "anchors": ["sync.go:18-84", "sync.go:137-147", "sender.go:90-131", "server.go:883-956"]}
{"id": "C209", "title": "A request for contacts or groups is answered or fails with an error", "statement": "Receiving a synchronisation request ends normally or with an error, whatever the server answers. FALSE: sendSyncMessage reads the timestamp of a response that is nil when the message could not be sent, so every request for contacts or groups, from whomever, that comes while the server refuses messages or cannot be reached stops the client.", "quantifier": "for all envelopes that hold such a request, all stores and contacts, and all servers that refuse messages; a witness from a stranger", "why_tests_cant": "The refusal has to come after the upload has succeeded; no test reaches it, and that it happens for every state and sender is not a matter of examples.", "anchors": ["sync.go:137-260", "sender.go:67-84"]}
{"id": "C210", "title": "Another device that asks for the contacts or groups gets them", "statement": "Every message posted in answer to a request for contacts (groups) is for the own account and holds a pointer with a key; decrypting with it what was uploaded gives a stream that splits into the registered contacts with valid identifiers, in order and each with number, identifier, name, colour, verification, blocking and timer (the groups with identifier, name and members).", "quantifier": "for all lists of contacts or groups, all keys and vectors, all servers, device lists, session states and rounds of corrected device lists", "why_tests_cant": "Tests would check one list; the property composes marshalling, streaming, encryption, the pointer, padding and all rounds of sending for arbitrary lists.", "anchors": ["sync.go:155-260", "attachments.go:55-89", "sender.go:67-84"]}
{"id": "C211", "title": "Two people who see the same safety number talk to each other and to nobody else", "statement": "Two people who ask for each other's safety number (GetFingerprint) see the same sixty digits exactly if each of them has the other's own identity key saved and they use the same telephone numbers for each other, provided that no two different persons among those concerned have the same thirty digits. From then on, until the application removes the saved key, everything the first one is shown as a message from the second was asked for, word for word, by an application with the second one's identity key, and everything the first one sends to the second can be read only with that key, whatever the network and the servers do.", "quantifier": "for all runs of any number of applications against an active network, all hash functions with 64 bytes of output, all moments of comparison before or after any number of messages", "why_tests_cant": "the claim is about every possible impersonator and every later message, not about a number computed in a test", "anchors": ["store.go:235-282", "fingerprint/fingerprint.go:24-112", "fingerprint/fingerprint_numbers.go:8-53"]}
{"id": "C212", "title": "The next start uses the configuration that was saved last, even if a save is interrupted", "statement": "What the next start of the client reads from its configuration file is what was saved last, with the server, the way of verification and the storage directory filled in if they are missing; a name set with SetUsername is the name then, and nothing else changes. RefreshConfig takes into use what someone else wrote into the file. A stop while the file is being saved loses nothing: the client still starts, as the same account.", "quantifier": "for all configurations, all sequences of changes, refreshes and edits, every outcome of every write and every point at which it is cut off, and all later starts", "why_tests_cant": "a test would have to stop the process between the truncation and the writing of the file, and then show that no later start, with any answer of the server, succeeds", "anchors": ["config.go:38-105", "profile.go:6-9", "textsecure.go:262-376", "store.go:461-482"]}
{"id": "C213", "title": "The store is opened with its password and with nothing else", "statement": "What was written while the store was opened with a password is read again after any number of further starts with that password, and with another password it is not read unless the two derived keys have the same authentication code for it. Unless unencryptedStorage is set, everything the client writes into its store is encrypted. The keys depend on eight random bytes drawn when the store was made. A password can be given later to a client that was used without one.", "quantifier": "for all passwords, salts, files, sequences of starts with any passwords, and all outcomes of the write of the salt", "why_tests_cant": "no test opens a store with every wrong password, and none stops the first start between making the salt file and filling it", "anchors": ["store.go:43-91", "store.go:125-177", "store.go:461-482"]}
{"id": "C214", "title": "What the command line program prints of a message tells who wrote it, where and when", "statement": "The line that is printed for a received message, and handed to the hook, tells the sender, the group, the text and the time of the message: different messages give different lines, contacts are shown by name, and no message can make the program print what looks like a message of somebody else.", "quantifier": "for all messages, contacts, group names, time zones and times", "why_tests_cant": "a test compares the lines of a few messages; that no two messages give the same line, and that no text imitates another sender, is a claim about all pairs", "anchors": ["cmd/textsecure/main.go:218-265", "cmd/textsecure/main.go:281-306", "textsecure.go:575-668"]}
{"id": "C215", "title": "The command line program answers those who wrote to it", "statement": "Every message that arrives is answered, by the echo service, where it came from: to the one who wrote it, or to the group. Without the echo service the first message begins one conversation, with the one who wrote it, and later ones begin none.", "quantifier": "for all states, all frames that arrive and all flags", "why_tests_cant": "a test sends the handler messages that it made itself; which messages the library can hand to it, over all envelopes, decides whom it can answer", "anchors": ["cmd/textsecure/main.go:218-265", "handler.go:75-151", "textsecure.go:565-668", "server.go:813-816"]}
{"id": "C216", "title": "What is typed is sent", "statement": "Every line that is given to the command line program is sent as one message, in order, and the questions of the registration are answered by one line each, whether the lines are typed or come from a pipe.", "quantifier": "for all lines and all ways in which reads divide them", "why_tests_cant": "how reads divide the input depends on the system; a test with a few lines sees one way", "anchors": ["cmd/textsecure/main.go:98-106", "cmd/textsecure/main.go:187-205"]}
{"id": "C217", "title": "Asking the own devices for the contacts brings the contacts", "statement": "SyncContacts asks the other devices of the own account, and nobody else, for the contacts; it returns without an error only if the request was accepted, an error is returned if it was not, and when the list of contacts that another device answers with arrives, the client that asked has the contacts.", "quantifier": "for all clients, servers and answers, every state of the sessions, and every sender of a list of contacts or groups", "why_tests_cant": "the effect is spread over two clients, a server and three messages; a test of the request sees that it was sent, not that the answer is dropped", "anchors": ["server.go:534-548", "sender.go:67-84", "sync.go:18-28", "sync.go:155-212"]}
{"id": "C218", "title": "The gateway tells its callers in JSON what happened", "statement": "Every answer of the HTTP gateway is a JSON object whose member success, like the status, is true exactly if everything that was asked for was done, and whose member error otherwise gives the reason.", "quantifier": "for all requests, recipients, files in /tmp and errors of sending", "why_tests_cant": "the texts of errors come from the Go library, the operating system and the network; a test has a few of them", "anchors": ["cmd/textsecure/main.go:353-378", "cmd/textsecure/main.go:381-409", "cmd/textsecure/main.go:412-503"]}
{"id": "C219", "title": "A message goes by one number everywhere, and no two by the same", "statement": "If a send function returns a number, then it is the time given by the caller or else that of the call, in milliseconds; every request made for this message - repeated ones after a refusal and the one with the copy for the own devices included - carries it, the application of the recipient is told of the message under it, the other own devices are told of the copy under it, and a receipt for the message reports it. Two messages sent by one client never go by the same number.", "quantifier": "all messages, servers, refusals and repetitions, clocks, recipients' environments", "why_tests_cant": "the number is made in one place, copied through three messages and two encodings and compared by another program; the clock does not tick between two quick calls only now and then", "anchors": ["server.go:749-756", "server.go:883-956", "sender.go:13-84", "textsecure.go:134-142", "sync.go:86-135", "handler.go:54-72"]}
{"id": "C220", "title": "Attachments that are received are kept, each in a file of its own", "statement": "Every attachment of a message that reaches the command line program is written, whole, to a new file of the working directory whose name begins with TextSecure_Attachment, and noted in the log with its length, its sender and the name of the file; no other file is changed or replaced, and a file made for an attachment that could not be written to the end is not taken for one.", "quantifier": "all sequences of messages, contents of the directory, random names, failures of making and writing files", "why_tests_cant": "names are drawn at random and clash only now and then, writing fails only on full disks, and what the directory holds before is the user's", "anchors": ["cmd/textsecure/main.go:218-279"]}
{"id": "C221", "title": "What a peer says about a message besides its text reaches the application", "statement": "The quote, the shared contacts, the sticker, the reaction, the time, the profile key and the timer of a message are handed to the application as the peer sent them, whatever further fields the message has. An application can tell from what it is handed that a message is to be viewed once, that it needs a newer program to be understood, or that it asks for an earlier message to be deleted.", "quantifier": "all messages with any such parts, in any combination and with any further fields", "why_tests_cant": "combinations of optional fields are unlimited, and tests of the handlers use messages made by the library itself, which has no way to set these fields", "anchors": ["handler.go:75-111", "message.go:8-97", "protobuf/SignalService.proto:316-339"]}
{"id": "C222", "title": "What was decided on another own device takes effect here", "statement": "When another device of the account reports a decision - whom it blocks, how a message request was answered, which messages were viewed, new settings or keys - the client acts on it or tells the application; in particular, messages of somebody who was blocked on another device are no longer handed to the application.", "quantifier": "all lists of blocked numbers, accounts and groups, all other kinds of reports, all messages afterwards", "why_tests_cant": "needs a second device with its own sessions; a test of one message cannot show that no later message is affected", "anchors": ["sync.go:18-84", "handler.go:75-111", "protobuf/SignalService.proto:459-463", "protobuf/SignalService.proto:580-598"]}
{"id": "C223", "title": "A message to a group reaches every member once, as one message of that group", "statement": "If sending to a group succeeds, then a request was accepted for every member that holds nothing but encryptions of the text with the key and the revision of the group; all requests carry one number, which is returned; and the application of a member is handed the text, under that number, for the group its client finds by that key. A message that is sent again because sending failed is not handed to a member twice as two messages.", "quantifier": "all groups and orders of members, servers, refusals and failures, repetitions, recipients' environments", "why_tests_cant": "needs several members with sessions, a server that fails in the middle, and the clients of the members", "anchors": ["groups.go:205-251", "sender.go:13-61", "server.go:749-793", "handler.go:75-111"]}
{"id": "C224", "title": "A connection is given up when the server is silent, and only then", "statement": "If no answer to a ping arrives after some moment, StartListening returns within a minute of it and of the time spent on handling messages. While the server answers the pings, the connection is not given up, and every message it sends is read.", "quantifier": "all sequences and times of frames, durations of handling, ways in which frames come together", "why_tests_cant": "needs minutes of real time, a server that answers late or not at all, and control over how long messages take", "anchors": ["websocket.go:20-32", "websocket.go:108-141", "websocket.go:156-229", "crayfish/backend.go:42-56", "crayfish/backend.go:227-345"]}
{"id": "C225", "title": "A connection that is lost ends StartListening", "statement": "When the connection to the server is lost, StartListening returns after handling what it had read, so that the program can connect again; whatever the goroutine that writes was doing. The goroutine that writes ends as well. Requests are handled in the order of arrival and acknowledged in that order, each at most once.", "quantifier": "all interleavings of the two goroutines, all sequences of requests, all moments at which writing fails or the connection breaks", "why_tests_cant": "a matter of schedules, of a full channel and of a network that stalls", "anchors": ["websocket.go:77-99", "websocket.go:108-141", "websocket.go:144-229", "websocket.go:236-246"]}
{"id": "C226", "title": "Nothing is lost over connections that break, and little is done twice", "statement": "With a server that keeps messages until they are acknowledged and a program that connects again, every message the server has forgotten was handled, what it keeps is the rest in order, and everything can be caught up with. At most 258 messages of a connection are handled again over the next, and none of them is handed to the application again.", "quantifier": "all sequences of connections, schedules of the two goroutines, moments of breaking, lost acknowledgements", "why_tests_cant": "needs connections that break at every point of two goroutines, and a server that remembers", "anchors": ["websocket.go:77-99", "websocket.go:108-141", "websocket.go:144-229", "textsecure.go:470-474"]}
{"id": "C227", "title": "The other own devices get one copy of what was sent", "statement": "If the account has other devices, a message that was sent successfully comes to them as one copy under its number, whether it went to a person or to a group; if it has none, no copy is sent.", "quantifier": "all recipients, groups and servers, repeated requests", "why_tests_cant": "needs an account with several devices, a group and a server that asks for copies", "anchors": ["groups.go:229-250", "sender.go:13-84", "server.go:883-956", "sync.go:86-135"]}
{"id": "C228", "title": "The server always has keys of the account to give away", "statement": "Somebody who writes to the account for the first time gets from the server a one-time prekey that nobody else got, at any time in the life of the installation; and the signed prekey that comes with it is renewed from time to time.", "quantifier": "all lives of an installation with any starts, failures and crashes, any number of people asking at any moments", "why_tests_cant": "needs more than a hundred people who write for the first time, over the life of one installation", "anchors": ["textsecure.go:405-468", "prekeys.go:88-139", "server.go:550-565"]}
{"id": "C229", "title": "The members of an old-style group know it and see what is written to it as messages of the group", "statement": "When NewGroup succeeded and its messages were delivered, every member's client knows the group with its name and members (GetGroupById) and can write to it; what is written to the group is presented to the members as a message of that group; later changes and departures are followed.", "quantifier": "all histories of creating, updating, leaving, writing, receiving, failing writes and restarts; all messages including those of other programs", "why_tests_cant": "needs two clients with a server between them, and every history of one of them", "anchors": ["groups.go:113-168", "groups.go:253-455", "handler.go:75-112", "server.go:749-793"]}
{"id": "C230", "title": "An attachment that cannot be fetched is an error, not the end of the process", "statement": "When a message refers to an attachment, and the attachment is not to be had (the address is not one, there is no answer, or the server says it no longer has it), handling the message ends with an error and the process goes on. FALSE of the code: getAttachment ignores the error of http.NewRequest and writes to the nil request, so a peer's attachment with the key \"%\" (or with a control character) ends the process without any answer of the network; and the status of the answer is not looked at, so that any answer of less than 32 bytes, such as an empty 404 for an expired attachment, ends it when the MAC is cut off. It is an error when the key has only characters that stand for themselves, the attachment key has at least 32 bytes, and either there is no answer or it has at least 32 bytes and is not the sealed one.", "quantifier": "for all attachment pointers by key, all networks, all messages of peers with such an attachment", "why_tests_cant": "Tests fetch nothing or fetch from a server of their own that has the file. The keys come from a peer and the answers from a server years later; the claim is over all keys and all answers.", "anchors": ["attachments.go:24-38 getAttachment", "attachments.go:98-126 handleSingleAttachment", "attachments.go:222-231 getAttachmentLocation", "attachments.go:161-176 handleAttachments"]}
{"id": "C231", "title": "A message that ends the process ends it once", "statement": "When handling a message ends the process, the message was not acknowledged and the server hands it over again at the next start. The message is then refused as one already opened, the refusal is acknowledged, and the client works again. FALSE of the code: a first message of a peer who used no one-time prekey (or the last-resort one), which ends the session and has an attachment that ends the process (key \"%\"), does so at every start for ever. The flag is handled before the attachments and deletes the session, the signed prekey it was built from is still there, so the message opens again each time, and the client cannot be used until the server forgets the message. It holds for every message that does not end the session, if no archived session state is involved and no chain is near the end of its counters.", "quantifier": "for all messages of peers, all histories of the stores, all networks and all numbers of later starts", "why_tests_cant": "A test would have to end its own process, start it again with the stores left behind and have a server hand over the same message; the claim is over all messages, all earlier histories and any number of starts.", "anchors": ["textsecure.go:495-514 handleFlags", "textsecure.go:565-673 handleReceivedMessage", "handler.go:75-111 handleDataMessage", "websocket.go:182-225", "attachments.go:24-38 getAttachment", "axolotl/session.go:375-430", "axolotl/session.go:677-701"]}
{"id": "C232", "title": "A last message that ends the session is shown once", "statement": "A peer sends a text message that begins a session and also ends it; there may be older sessions with the peer. However often the server hands it over, the application is told of it once. FALSE of the code when the message uses no one-time prekey (or the last-resort one): handling it deletes the session it was opened with, the signed prekey stays, so it opens again, is shown again and is acknowledged, each time it is handed over. With a one-time prekey it holds: the prekey is gone after the first time, and each later time the message is dropped without an error and nothing is shown.", "quantifier": "for all messages of that form, all stores in which the message does not belong to a session that is there, all networks and random numbers, any number of deliveries", "why_tests_cant": "Whether a message shown once can be shown again depends on what all stores hold after each delivery, for any number of deliveries; a test would have to know which part of the stores allows it.", "anchors": ["textsecure.go:495-514 handleFlags", "textsecure.go:565-673 handleReceivedMessage", "handler.go:75-111 handleDataMessage", "axolotl/session.go:375-430 BuildReceiverSession", "axolotl/session.go:677-701 SessionDecryptPreKeyWhisperMessage"]}
