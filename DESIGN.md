# Formal model of signal-golang/textsecure: design

The Go code in `/repo` is read as text. The model is a set of small total Gallina functions in
`rocq/theories`, one file per area, each definition citing the Go lines it renders. Proofs are kept
in `*Proofs.v` files and the property theorems in `Prop*.v` files, which contain the statement, a
one-line proof, a concrete example that meets the hypotheses, and `Print Assumptions`.

## Conventions

* A byte is a `Z` in `[0,256)`; `[]byte` and `string` are `list Z`. `nil` and empty slices are told
  apart only where the Go code does (then `option`).
* `uint32` values are `Z` with explicit `mod 2^32` where the Go code adds.
* Every Go function that can fail returns `res A := Ok a | Err e | Panic`. Index and slice bounds,
  nil dereferences and `ensureKeyLength` are explicit `Panic` branches.
* Randomness, clocks, server answers and schedules are ordinary arguments, universally quantified.
* Cryptographic primitives (HMAC-SHA256, HKDF, X25519, AES block, Ed25519 verification, SHA-512)
  are the fields of a record `crypto`; theorems quantify over every such record and, where needed,
  assume the laws in `crypto_ok` (output lengths, AES inverse, DH commutativity). A toy instance
  satisfying the laws shows that they are consistent and is used for the examples and refutations.
  No cryptographic hardness is assumed anywhere: security properties are stated as reductions
  ("... or here are two messages with one MAC").
* Persistent effects of an API call are a list of writes, applied in order; a crash after `k` writes
  is the application of the first `k`. Torn writes are modelled separately (C29).
* Goroutines are step machines over explicit schedules.

## Trusted base

Coq 8.16.1 kernel and VM (`vm_compute` in examples and refutations). No axioms: every property theorem
is followed by `Print Assumptions`, expected to report `Closed under the global context`.
Trusted by reading: that the definitions render the cited Go lines, and the description of library
behaviour (protobuf wire format, Go slices, `fmt`, `base64`, `filepath`, channels) given in comments.
C180 to C183 speak of an attacker who computes with terms (`knows` in Secrecy.v): who can put together and
take apart byte strings, derive, hash, compute Diffie-Hellman values with a private key they have, and
encrypt and decrypt with a key they have, and to whom equal values are equal terms only. That the
primitives give away no more is trusted; signatures give nothing away. C179 ties the terms to the bytes.
C184 to C187 use the same kind of attacker (`aknows` in Active.v), who also runs server and network. There
bodies of messages are constants (public), and a public key whose private key no client has counts as the
attacker's. ActiveLink.v ties the terms to the bytes.

## Plan per property

| id | modelled | method |
|----|----------|--------|
| C01 | session.go builder and cipher, ratchet.go, messages.go, crypto.go, wire format | DH commutativity gives equal root and chain; composed with codec and CBC round trips |
| C02 | the same, two parties and a network as a step machine | invariant over an ideal list of chains shared by both parties, induction on the schedule |
| C03 | one receiver chain | invariant: stored keys are exactly the skipped indices not yet consumed; corollary for permutations |
| C04 | receiver record, several states | within a state: invariant that a consumed position has no key; across promotion of an archived state: refutation by a computed run |
| C05 | SessionDecryptWhisperMessage with its write list | case analysis: an error result comes with no writes |
| C06 | SessionDecryptPreKeyWhisperMessage | refutation by a computed run with a forged message |
| C07 | sessionState.decrypt, verifyMAC | inversion; collision extraction for two accepted strings |
| C08 | encrypt/decrypt histories of one record | invariant on the sender chain: fresh keys and increasing index; with archived sessions a sharp bound, by counting the kept sessions that can still come to a position (Reuse.v) |
| C09 | encrypt with write list and crash points | same invariant, message is returned only after the last write |
| C10 | getOrCreateMessageKeys with Go integer widths | arithmetic and induction on the loop |
| C11 | the same | refutation by a computed history; per-call bound proved in C10 |
| C12 | record operations | invariant by induction on operations |
| C13 | hasSessionState, BuildReceiverSession | case analysis |
| C14 | prekey message processing with write list | case analysis on writes; false in the id-0 corner, treated there |
| C15 | the same with crash points | refutation by a computed run |
| C16 | identity store and both builders | invariant by induction on histories |
| C17 | BuildSenderSession, makePreKeyBundle | inversion |
| C18 | messages.go over a model of the protobuf wire format | round trip of the wire codec, then of the two messages |
| C19 | messages.go | refutation: concrete panicking bytes; exact characterisation of panicking inputs |
| C20 | crypto.go over an abstract block cipher | induction on blocks |
| C21 | the same | refutation (panic, and accepted ill-formed padding); exact characterisation |
| C22 | LocalStorage protobuf schema and wire format | nested round trip |
| C23 | prekey record schemas | round trip |
| C24 | store encrypt/decrypt | composition, inversion |
| C25 | store decrypt | refutation; panic iff shorter than the MAC or MACed garbage |
| C26 | file names, directory listing | injectivity of decimal printing and last-underscore split |
| C27 | `%09d` and `Sscanf("%d")` | decimal lemmas |
| C28 | Itoa/Atoi, mask | decimal and bit lemmas |
| C29 | truncate-then-write | refutation by a computed run |
| C30 | padMessage, stripPadding | list and modulo arithmetic |
| C31 | buildAndSendMessage with server oracle | induction on the reply list |
| C32 | the same with an infinite reply stream | refutation: a stream on which no fuel suffices |
| C33 | the same | refutation by a computed run |
| C34 | buildMessage over an abstract session map | refutation: reply naming another device |
| C35 | createMessage, Content/DataMessage wire subset, padding | round trip composition |
| C36 | createMessage | refutation: the serialized content is independent of the group |
| C37 | receive loop as a step function | induction on frames |
| C38 | decryptReceivedMessage | refutation by a computed run; exact characterisation |
| C39 | receive loop | refutation |
| C40 | handleMessage | case analysis over all combinations |
| C41 | handleFlags, EndSession, DeleteAllSessions | set reasoning on file names |
| C42 | two goroutines as a step machine | refutation by a schedule reaching a deadlock |
| C43 | groups.go | list lemmas, refutation for duplicates and for leaving |
| C44 | groupAuth.go, groupChange.go | case analysis, induction on action lists |
| C45, C46, C47 | groupModify.go, groupValidator.go | refutations; C47 for all groups and changes |
| C48 | groupValidator.go | induction on lists |
| C49, C50 | fingerprint package over an abstract hash | order lemmas; refutation for equal halves |
| C51 | base64, key encodings | induction on blocks of three |
| C52 | hex and UUID formats | finite sweep on bytes |
| C53 | varint framing | induction |
| C54 | prekey generation and upload | arithmetic on ids; refutation for a start near 2^24 |
| C55 | attachments.go | composition with C20 |
| C56 | profile names over abstract AES-GCM | list lemmas; refutation for trailing zero |
| C57 | query encoding | big-endian round trip |
| C58 | contacts map | map lemmas |
| C59 | credential cache | refutation |
| C60 | Verify's write to its argument | refutation over an abstract Ed25519 |
| C61 | one record with archived states | refutation by a computed run |
| C62 | LoadPreKeyWhisperMessage | refutation for id zero |
| C63 | store.go LoadSession over files | refutation; characterisation of every damaged file |
| C64 | GetSubDeviceSessions over file names | refutation; completeness of the list proved |
| C65 | regular expression of isValidUUID | refutation (the bar); exact language |
| C66 | sender.go sendSyncMessage | refutation; every refusal |
| C67 | sending over the whole store | frame invariant by induction on the exchange with the server |
| C68 | sync.go | refutation; every sender and every flag |
| C69 | handler.go | refutation; all other contents safe by case analysis |
| C70, C71, C73 | reception with write list and acknowledgements | refutations by computed runs |
| C72 | handleCallMessage | refutation; the callback is never called |
| C74 | reception | inversion down to the session that decrypted |
| C75 | copy sent by sender.go, read by sync.go | round trip composition; refutation for end-session |
| C76 | reception of a repeated message | refutation; never reported |
| C77 | attachments.go | refutation; result independent of the digest |
| C78 | relativePath | refutation; exact characterisation |
| C79 | profiles/profile.go | refutation; the second answer decides |
| C80, C81 | contact table and file | invariant on the keys; refutations |
| C82, C83 | contact discovery | refutations; all-or-nothing characterisation |
| C84 | GetProfileUUID | frame for honest answers; refutation |
| C85 | curve25519sign over abstract Edwards arithmetic | algebra |
| C86 | helper process protocol as a step machine | refutation by a schedule |
| C87, C88 | groups.go sending | list induction; refutation |
| C89, C90 | groups.go updating and restarting | map lemmas; refutations |
| C91 | groupChange.go | effect specification per action, composed over the run |
| C92, C93, C94, C95 | groupChange.go, groupValidator.go | impossibility for all groups and changes; refutations |
| C96 | HandleGroupsV2 | exact characterisation of the crashes; refutation |
| C97 | histories of messages, calls and restarts | invariant of every stored group |
| C98–C100 | HandleGroupsV2, FindGroup | independence of the state or sender; refutations by histories |
| C101 | JoinGroup | inversion; refutation |
| C102, C103 | UpdateGroupFromServer | refutations; what every unreadable answer does |
| C104–C106 | decryptGroup, CheckJoinStatus | list induction; exact characterisation; refutations |
| C107 | sendGroupV2Helper | list induction; refutation |
| C108, C109, C116, C118 | Setup, registerDevice over all lives of an installation | shape of the events of a start; invariant over starts cut off anywhere; refutations |
| C110–C115, C117 | Setup | relations kept by every step of a start; exact characterisations; refutations |
| C119 | addNewDevice, provisioningCipher | agreement with the reader of the new device; refutation |
| C120–C122 | AddNewLinkedDevice with its timers, over all runs | invariant over runs with a clock; refutation for any delay |
| C123, C124 | unlinkDevice, getLinkedDevices | inversion; refutations |
| C125 | remoteAttestationKeys, getRequestId | agreement with the other side's computation; inversion |
| C126 | attestation followed by CreateDiscoveryRequest | composition with C57; refutation for any verification |
| C127, C128 | GetAndVerifyMultiRemoteAttestation | exact characterisation; list induction; refutations |
| C129–C131, C135 | account attributes, over all sequences of calls | agreement of derivations; induction over histories; refutations |
| C132–C134 | GetProfile requests, GetAccessFor, GetOurCertificate | what the presented bytes decode to; list induction; refutations |
| C136–C139 | all ways of making a request | equality of two runs; parsing of addresses as a separate specification; refutations |
| C140, C141 | AsBasic, SetBasicAuth, GetCredendtails | round trip with a reader of the header; the code page Windows-1250 is a table in Transport.v (from the WHATWG index, which golang.org/x/text uses; trusted) whose decoding is proved injective; refutations |
| C142, C143 | GetProfileUUID with its image | round trip, authenticity, exact characterisation of crashes |
| C144 | saveLocalAvatar, GetLocalAvatar | frame property over all paths; refutation by an identifier with dots |
| C145–C147 | GetProfileUUID, GetProfileE164 | invariant; exact characterisation; refutations |
| C148–C152 | the command line program: received messages, contacts and groups of the command line | induction over messages; permutations; refutations |
| C153–C159 | its gateway: uploads, JSON, forgetting identities, listing groups | exact characterisation; frame properties; refutations by histories |
| C160 | two clients and the server between them: SendMessage to callback | simulation: the machine of C02 is refined by the two clients; induction over the schedule |
| C161 | the session mutex, any number of goroutines | linearizability: invariant over interleavings of single file accesses; progress |
| C162 | concurrent sending | corollary of C161 and C09 |
| C163 | building a session without the mutex | refutation by a computed interleaving; for goroutines with different peers a simulation of each by its own operations one after another |
| C164 | unlocked read of a session file | refutation; invariant for calls under the mutex, for one goroutine and for goroutines with different peers |
| C165 | listener loops, connections, acknowledgements | invariant under serial use; refutations |
| C166 | StopListening | refutation while connecting; invariant once connected |
| C167 | stored session states after reading and sending | refutation with archived states and by A's first chain; conversation invariant otherwise |
| C168 | both sides build a session and write at once | refutation by a computed run, for all randomness |
| C169 | messages of archived sessions | the invariant of C02 is carried over to the record with the state moved to the front |
| C170 | any number of conversations | a network of devices; the invariant of C02 for each conversation, and a frame lemma: the writes of a step are about its own peer and prekey |
| C171 | looking for the helper | case analysis; refutation |
| C172 | starting, as an interleaving of goroutines | invariant over all schedules; refutation by schedules |
| C173 | identifier handed over with sealed messages | invariant over all schedules; refutation by a schedule |
| C174 | verification code to request | exact characterisation by numerals without leading zeros; refutation |
| C175 | the helper's answer to a registration | JSON decoding into 16 bytes; refutation |
| C176 | messages of the helper | case analysis; refutation |
| C177 | Stop | invariant over all schedules, a potential for connections; refutation by a schedule |
| C178 | profile keys announced by messages | case analysis of the handlers; refutation by a copy |
| C179 | bytes on the network and in the stores as values of terms | conversation invariant, evaluation of terms |
| C180 | which texts can be computed from messages and copied stores | induction on the attacker's derivations with an exact invariant |
| C181 | forward secrecy | from C180; refuted for A's first chain and without a one-time prekey |
| C182 | healing after a copied store | from C180 |
| C183 | tags that can be computed | from the invariant of C180 |
| C184 | any number of clients, active server and network, losses | invariant: every stored state is at a place of an agreement with its remote identity; exactness of terms |
| C185 | taken texts and their senders | from C184; refuted when a signed prekey is lost |
| C186 | keys of sent texts | from C184 |
| C187 | name, saved identity, session | invariant of stores over uncut calls; refuted with a cut call |
| C188 | conversation with stops at any write | invariant of C02 kept by every prefix of writes outside the prekey window; refuted inside it |
| C189 | first messages and replies byte for byte as published | independent byte-level spec (base-128, CBC, X3DH, chains); unfolding of the builders, induction over the sent list; refuted without one-time prekey |
| C190 | uploaded prekeys are stored with their private keys | invariant of the prekey directory over all starts and stops (PropKeysTold.v), trace of a start; refuted for the signed prekey when its write fails |
| C191 | each sent text is taken at most once against an active network | injectivity of chain terms (Injective.v), set of used places as invariant over the executions of PropActive.v; refuted with archived sessions, for which a sharp bound is proved with an account of each kept session (Accounts.v) |
| C192 | attachments are all that their reader gives | induction on the reads of any reader, for all buffer sizes; composed with C55; refuted for a failure that is not repeated |
| C193 | a first message is taken under one name and device | invariant (removed prekeys stay away) over all executions; refuted for first messages without one-time prekey |
| C194 | one change by an administrator has exactly its effect | case analysis over the changes with the effect stated field by field; acceptance through the rules of C48 |
| C195 | leaving, declining, withdrawing, asking to join | refuted; the exact outcome for all groups |
| C196 | read marks, receipts and typing notices | decoder composed with the handlers, induction on the marks; refuted for receipts and typing |
| C197 | a registered installation keeps account and store | relation kept by every step of a start, induction on the starts |
| C198 | an accepted message is shown by every present device; it gets through to reinstalled, new and unchanged devices | conversation invariant gives `understood` for the next messages; invariant over devices and attempts; spec of server and recipient in Delivery.v |
| C199 | what is written to a person goes only to the owner of the saved key | SendMessage as a sequence of steps of a life (PropPosted.v), agreement invariant of C184-C187 over lives (Lifetime.v); refuted when a key is removed and sessions stay |
| C200 | authenticity, secrecy and freshness over the whole life of installations | the invariants of C184-C186 with deletion of sessions and renewal of keys as further steps; refuted for replays of first messages without one-time prekey after the end of a session |
| C201 | what an application shows as from a person was asked for by that person's application | every send and every reception as a sequence of steps of a life (Applications.v), C199 over those steps, and the round trip of contents (C35) |
| C202 | what an application puts on the network can be read only by the owner of the saved key, over whole runs | as C201: each request's messages are made in the steps of its event, then C199_written over the whole run |
| C203 | no text is taken twice over whole lives, through deleted and renewed sessions | invariant "the keys of taken places are never held again" (Fresh.v) over the steps of Lifetime.v: a session deleted is not begun again because its one-time prekey or its own base key is gone; origin of tags as in C191 |
| C204 | two messages shown as from a device of a person were encrypted in two steps, each asked for by that person's application; FALSE with "two calls of SendMessage" for "two steps" | a run of applications told as a life (Applications.v); C203 on the two receptions, origin of the texts as in C201; a server that answers 409 without naming a device as counterexample |
| C205 | after a registration, whatever happens to an installation, every load from its files gives what was last stored; later starts never register again | `kept` (files represent the stores, session files, ranges, last-resort prekey) over the steps of Lifetime and later starts; `new_files` over the attempts to register |
| C206 | a question about a group carries a presentation of a credential issued for that very day, for that group and account; it is asked for a week | `read_auth` of the header; all caches and servers |
| C207 | a running client follows its groups: true for a week, FALSE from the eighth day on (credentials never refreshed, updates fail silently, removed members keep getting messages) | `knows` invariant over all calls without a restart; refutation with a group Carol is removed from |
| C208 | a received message makes the client write only to its own devices: FALSE for reports of verified identities (a stranger chooses a third person to write to); contacts and groups go to nobody else | `about` invariant over all rounds of sending, case analysis over all contents; refutation with a stranger's message |
| C209 | a request for contacts or groups never stops the client: FALSE when the server refuses the answer | for every sender and refusing server; witness |
| C210 | another device that asks gets the contacts and groups | composition of C53, C55, the wire format and `about` |
| C211 | the same safety number means the same keys; later messages come from and go to their owner | C49 with an explicit premise about collisions, then C201, C202 and that saved keys stay |
| C212 | the next start uses what was saved last; **false** if a save is cut off (the client never starts again, or registers anew) and for RefreshConfig | what was saved last is computed from the changes alone; C197 without whole writes |
| C213 | the store opens with its password only; **false**: encrypted unless asked otherwise, random salt after a stop, a password given later | round trip and authentication of Storage with keys from an uninterpreted PBKDF2 |
| C214 | a printed line tells sender, group, text and time; **false**: sealed messages have no sender, contacts no name, lines can be forged, twelve hours | injectivity of the line for direct messages; a text for every forged line |
| C215 | the program answers those who wrote; **false**: never a group, never a sealed message | from the frames to the calls of the handler; all conversations that are begun |
| C216 | what is typed is sent; **false** of a pipe, where all but the first line of a read are lost | induction over the lines; all ways in which reads divide them |
| C217 | SyncContacts brings the contacts; it asks the own account only, but **false**: a refusal stops the program and the answer is dropped unread | the log of the exchange; all senders and contents of an answer, composed with C210 |
| C218 | answers of the gateway are JSON and say what happened; **false** of errors that hold a quotation mark, as those of an unreachable server do | a reader of RFC 8259 as specification; all requests, all error texts |
| C219 | one number for a message: returned, in every request, at the recipient, in the copy, in receipts; **false** that no two share it (two calls within a millisecond) | all servers, retries, messages; the clock as an argument |
| C220 | received attachments are kept whole in new files, the log is true, nothing else is touched; **false** when echoing (thrown away) and when writing fails (a beginning is left) | all messages, directories, random names, failures |
| C221 | quotes, contacts, stickers, reactions are handed on as sent; **false** of view-once marks, required versions and requests to delete: nothing depends on them | all well-formed contents with any further fields |
| C222 | decisions taken on other own devices take effect; **false**: lists of blocked people and all other reports are dropped | all such reports |
| C223 | a message to a group: requests for all members, one number, what members are shown; **false** that sending again after a failure shows it once | all members, servers, failures |
| C224 | a silent server is given up within a minute, one that answers is kept; **false** when handling messages takes a minute | all frames, times and durations |
| C225 | a lost connection ends StartListening; **false** when a write stalls while more than 256 acknowledgements gather | all schedules, requests and failures |
| C226 | nothing is lost over connections that break, at most 258 messages are handled again; **false** that receipts of the server are handed over once | all sequences of connections, schedules and losses |
| C227 | one copy of what was sent for the other own devices; **false** of groups, where there is one for every member | all recipients, groups, servers |
| C228 | one-time keys for everybody who writes first, signed prekey renewed; **false**: one upload in the whole life | all lives with failures and crashes, all who ask |
| C229 | members of an old-style group know it and see its messages as such; **false**: a client knows only groups it made itself | all histories with failures and restarts, all messages |
| C230 | an attachment that cannot be fetched is an error; **false**: a key that makes no address, or an answer of less than 32 bytes, ends the process | all keys, networks, messages of peers |
| C231 | a message that ends the process ends it once; **false**: a first message without a one-time prekey that ends the session and has a bad attachment ends it at every start; holds for messages that end no session | all messages, histories, networks, later starts |
| C232 | a first message that ends the session is shown once; **false** without a one-time prekey: it is shown at each delivery; holds with one | all messages of that form, stores, networks, numbers of deliveries |

## What is modelled

| module | code in /repo |
|--------|---------------|
| Bytes, Res | Go slices, errors and panics as far as used |
| Wire | the protobuf wire format (library) |
| Crypto, Cbc | axolotl/crypto.go, crypto.go |
| Messages | axolotl/messages.go, axolotl/keys.go |
| Session, Builder | axolotl/session.go, axolotl/ratchet.go, the store interface of axolotl/store.go |
| History, Conversation, Replay, CrashReceive, TypedHistory | executions of the above with crashes, two parties, any schedule |
| Secrecy, SecrecyProofs, SecrecyLink | the values of the above as terms and what can be computed from them; not code of its own, tied to the code by C179 |
| Active, ActiveLink | the same against an active attacker: places in sessions of any number of clients as terms; tied to Session.v and Builder.v by the lemmas of ActiveLink.v |
| Lifetime, PropPosted | executions with deleted sessions, removed identities and new prekeys as steps (store.go 328-343, 446-457, cmd/textsecure/main.go 353-378); SendMessage of Sending.v as such steps |
| Fresh, PropFresh, PropCounted | no code of their own: invariants over Lifetime for C203, C204 |
| DiskLife, PropDiskLife | the file operations of store.go behind the steps of Lifetime, with the starts of Startup |
| GroupClock, PropGroupClock | groupsv2/groupsv2api.go 28-68, the head of queryGroupChangeFromServer, over Credentials and Groups2Store |
| Answers, PropAnswers | sync.go 18-84, 137-260 and sender.go 67-131: what is sent because of a received message; over Sending, Receiving, Attachments, Access. The requests of an upload and of contact discovery are not in the log of `react` |
| SafetyNumber, PropSafetyNumber | store.go 235-282 over Builder (saved identity keys) and Fingerprint; SHA-512 is an argument |
| ConfigFile, PropConfig | config.go 38-105, profile.go 6-9, store.go 461-475 over Startup; YAML is a pair of arguments (what was written is read back, the empty document changes nothing); client.GetConfig is ReadConfig, as in cmd/textsecure; checkUUID (config.go 18-36) is not called and not modelled |
| OpenStore, PropOpenStore | store.go 43-91, 125-129, 461-475; PBKDF2 is an argument, the directories are there |
| Console, PropConsole | cmd/textsecure/main.go 232-243, 281-306; the time zone is a constant offset, telToName a list |
| Program, PropProgram | cmd/textsecure/main.go 98-106, 187-205 and the calls of messageHandler by the library; bufio.Reader of Go with its 4096 bytes; reads that fail otherwise than at the end are not modelled |
| SyncContacts, PropSyncContacts | server.go 534-548 with sendSyncMessage (sender.go 67-84); the marshalled request is written out, as Content.v encodes only the part of a SyncMessage that sendMessage sets |
| Json, GatewayAnswers, PropGatewayAnswers | cmd/textsecure/main.go 353-503: statuses and bodies of the answers; Json is a specification (a reader of JSON texts, without joining surrogate pairs); the texts of errors are arguments, the encoder used for the list of groups is not modelled |
| PropStamps | no model of its own: what Sending and Receiving say about time stamps |
| SavedFiles, PropSavedFiles | cmd/textsecure/main.go 245-279: the working directory as a list of files; ioutil.TempFile as exclusive creation under a random name with up to 10000 attempts |
| PropUnread, PropDecisions | no model of its own: what Content and Receiving say about fields the library itself never sends; submessages that are never read are not checked for being well-formed |
| GroupSend, PropGroupSend | groups.go 229-250: the loop over the members, with the sending of Sending |
| Alive, PropAlive | websocket.go 20-32, 108-141, 156-229: read deadline, pings and pongs of the loop that reads, in milliseconds (crayfish/backend.go 227-345 is the same); a frame may or may not have come along with an earlier one |
| AckQueue, PropAckQueue | websocket.go 77-141, 144-229, 236-246: the loop, the channel of 256 and writeWorker of one connection as a transition system |
| Reconnect, PropReconnect | any number of connections of AckQueue with a server that keeps messages until they are acknowledged (the server is an assumption, as a relation) |
| PropGroupCopies | counts the requests that are taken in Sending and GroupSend, by recipient |
| PropSupply | a server that gives the uploaded one-time keys away one by one, around the lives of Startup; what it does when none is left (last-resort key or none) is up to the server and not modelled: no one-time key |
| PropOldGroups | histories over GroupsV1; a received message changes no old-style group because updateGroup, quitGroup and newPartlyGroup have no caller (read off the source) |
| Fetch, PropFetch | getAttachment: the address (url.Parse of the Go library: control characters and percent signs; trusted, from knowledge of the library), an answer with a status nobody looks at; not the time fetching takes, nor TLS |
| PropPoison | the same envelope handed over at one start after the other (it is not acknowledged when the process ends, C37), with the stores as they were left; each start has its own network and random numbers |
| PropGoodbye | the same envelope delivered again and again, what the application is told each time |
| Applications | runs of several applications: SendMessage, EndSession, other sendings (Sending.v) and handleReceivedMessage (Receiving.v), each with its own server and device lists, told as steps of Lifetime.v. The device lists are arbitrary at each call (an over-approximation); calls of the session API in other ways are excluded |
| InTouch, Delivery | a recipient with any devices and an honest server, around Sending and Receiving; nothing is added to the model of the client |
| Injective | which places of which sessions a client has opened: every acceptance by the newest session is at a place not opened before |
| Accounts | for every kept session which places were opened in it; the number of sessions in which a place can still be opened is bounded by the number of other messages that archived sessions accepted |
| Readers | MIMETypeFromReader and the reading of attachments (textsecure.go, groups.go, attachments.go) over any io.Reader |
| RecordCodec | axolotl/session.go Serialize/Load, axolotl/prekeys.go, LocalStorageProtocol.proto |
| Decimal, Storage | store.go |
| Encodings | helpers, textsecure.go key encodings, server.go idToHexUUID, sync.go streams |
| Content | SignalService.proto and WebSocketResources.proto as far as read or written |
| Sending | sender.go, server.go 749-956, prekeys.go makePreKeyBundle, textsecure.go SendMessage and EndSession |
| Receiving | websocket.go, textsecure.go reception, handler.go, sync.go, attachments.go download |
| Fingerprint | fingerprint |
| PreKeyGen | prekeys.go generation and publication |
| Attachments | attachments.go upload |
| Gcm, Profile | crypto/aesgcm.go, profiles/profile.go |
| Regex, Contacts | contacts/contacts.go, server.go contact synchronisation, contactDiscoveryCrypto |
| Credentials | groupsv2/credentials.go |
| CurveSign | curve25519sign |
| Crayfish | crayfish (requests and answers) |
| Helper | crayfish/backend.go 114-171, 260-387, crayfish/register.go, textsecure.go 262-301 and 400-436 (the helper process around its requests) |
| GroupsV1 | groups.go |
| GroupsV2 | groupsv2/groupAuth.go, groupChange.go, groupValidator.go, groupModify.go |
| Groups2Store | groupsv2/groupsv2.go, decrypt.go, createGroupChange.go, helpers.go, groupActions.go, groups.go 205-251 and 501-512 |
| Startup | textsecure.go 262-468, profiles/profile.go 43-117, unidentifiedAccess.go 35-58, transport/unidentifiedCert.go, config.go |
| Linking | link.go, crypto.go 131-169, server.go 420-509; a clock in seconds, timers that fire on time |
| Attestation | contactsDiscovery/remoteAttestationUtil.go; the answer as decoded JSON, the map in the order of iteration |
| Access | unidentifiedAccess.go 17-33, 60-181; server.go 215-285, 311-361; requests of profiles/profile.go 160-201 |
| Transport | transport/transport.go, transport/credentials.go; a request is its method, address, headers and body, a client its TLS configuration; sending and answers are not modelled here |
| Avatars | profiles/avatars.go, profiles/profile.go 345-467; absolute paths as lists of components, the disk and the servers as arguments |
| Gateway | cmd/textsecure/main.go 218-265, 328-503, 598-663; sending, redis, /tmp and the outcome of opening files as arguments; JSON and YAML as their values; flags without attachment, stress and endsession |
| Whole | two clients (Sending, Receiving) and an honest server: it hands out B's prekeys, accepts every message and passes them on; a device each, no synchronisation messages |
| Concurrent, ConcurrentProofs | goroutines on one set of stores: a step is one access to the files or to the mutex; only session files are seen truncated |
| Reuse | for every position the number of messages at it and of kept sessions that can still come to it; nothing is added to the model |
| Apart | the simulation for goroutines that have to do with different peers; nothing is added to the model |
| Listener | connections, the global variable wsconn, reading loops and writers; handling is one step |

Each property theorem is followed by `Print Assumptions` in its file; all of them report
`Closed under the global context`. Hypotheses such as `crypto_ok C`, `gcm_ok G` and `edwards_ok E` are
premises of the theorems that need them and are met by the instances `toy`, `toygcm` and `toyed`
(`toy_ok`, `toygcm_ok`, `toyed_ok`).

A property that is false of the code is kept with its statement; the theorem is then named `..._refuted`
and gives a witness, usually beside a theorem that says exactly when it holds. MANIFEST.json says so in its note.

## Testing the theorems

`seeded/LOG.jsonl` lists edits of the model like those a bug would make, with the theorems that stopped
being provable. The theorems that failed are found by building the edited copy, admitting every proof that
breaks, and asking `Print Assumptions` which property theorems rest on an admitted one.
Besides edits written by hand, single tokens of definitions were changed by a script (constants, comparisons,
branches, arguments). `PropPinned.v` holds the theorems added for those edits that no theorem had noticed;
they fix words, field numbers, file names and status codes in literal terms, beside the properties they belong to.

## Not modelled

TLS, HTTP, JSON and YAML syntax, the AES/SHA/Curve25519 internals, the zkgroup library, logging,
captcha handling, file permissions and the Go memory model beyond the channel
machines named above.

Functions that nothing calls or that are empty: `handleProfileAvatar`
(attachments.go), `aesCtrNoPaddingDecrypt`, `telToToken` (crypto.go), `RegisterWithUPS` (server.go),
`getGroupUrl`, `GroupInviteLinkUrl`, `GroupLinkPassword`, `handleGroupLinkUrl`, `createAcceptInviteChange`,
`getGroupJoinInfoFromServer`, `decryptUuidOrUnknown`, `createGroupContextForGroup`,
`CreatePromotePendingMemberAction`, `CreateGroupChangeFromGroupActions`, `getGroupJoinInfo` (groupsv2),
the commented code of contactsDiscovery, and the getters, setters and `Error` methods.
