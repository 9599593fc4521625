{"id": "C01", "title": "Outgoing message numbering", "statement": "In every dialogue, after any sequence of Create / CreateWithMessage / Update / Reply calls (accepted or rejected, in any order), the k-th message this agent has put into the dialogue carries id k if the agent started the dialogue and -k if the counterparty did. There are no gaps and no repetitions, and each is addressed from the agent to the counterparty.", "quantifier": "all rule sets, all addresses, all nonces, all finite sequences of API calls, all dialogues in the store, all positions k", "why_tests_cant": "A unit test fixes one conversation; the claim is about every history, including histories with rejected messages interleaved.", "anchors": ["libs/go/aealite/protocols/dialogue.go: update, Reply, validateMessageId, getOutgoingNextMessageId", "libs/go/aealite/protocols/dialogues.go: Create, CreateWithMessage, Update"]}
{"id": "C02", "title": "Exactly which incoming message id is accepted next", "statement": "A message from the counterparty that carries the reference of a non-empty stored dialogue is accepted into it if and only if its target designates an answerable earlier message and its id is, up to the sign fixed by who started the dialogue, 1 when nothing has been received yet and otherwise one more than the absolute id of the most recent message of EITHER party. Consequently the protocol numbering (the n-th message of a party has absolute id n) is honoured only when the latest message of either party has absolute id n-1; otherwise the correctly numbered next message is rejected and a wrongly numbered one is accepted.", "quantifier": "all dialogues, all histories, all candidate messages", "why_tests_cant": "Depends on the whole interleaving of incoming and outgoing messages; the repository tests never exchange more than one message.", "anchors": ["libs/go/aealite/protocols/dialogue.go: getIncomingNextMessageId, validateMessageId"]}
{"id": "C03", "title": "Strictly alternating conversations: responder never blocks, initiator blocks at the fourth message", "statement": "When two agents strictly alternate and number their messages as the library itself numbers them, the responder side accepts the initiator's messages for every length of conversation, while the initiator side rejects the responder's second message (id -2) in every such conversation, whatever its content.", "quantifier": "all conversation lengths, all rule sets permitting the performatives, all contents", "why_tests_cant": "Universal over conversation length; two library instances have to be composed.", "anchors": ["libs/go/aealite/protocols/dialogue.go: update, Reply, getIncomingNextMessageId"]}
{"id": "C04", "title": "Replayed incoming messages", "statement": "Delivering the same non-initial counterparty message twice in direct succession is always rejected the second time; delivering the same dialogue-opening message again is always rejected, at any later time. But it is not true that an accepted message can never be accepted again: there is a history in which a replay of an earlier message is accepted and stored twice.", "quantifier": "all reachable stores, all messages, all later histories", "why_tests_cant": "Replay can happen at any later point of any history.", "anchors": ["libs/go/aealite/protocols/dialogues.go: Update, create", "libs/go/aealite/protocols/dialogue.go: validateMessageId, getIncomingNextMessageId"]}
{"id": "C05", "title": "Only well-formed opening messages start a dialogue", "statement": "The first message of every dialogue in the store has id 1, target 0, a performative from the rule set's initial performatives and the starter reference of the dialogue's label.", "quantifier": "all reachable stores, all dialogues", "why_tests_cant": "Universal over API histories including rejected openings and openings of either party.", "anchors": ["libs/go/aealite/protocols/dialogue.go: basicValidationInitialMessage, validateMessageTarget"]}
{"id": "C06", "title": "Every later message replies to an existing message with an allowed performative", "statement": "For every message after the first in every dialogue: its target t is non-zero and there is an earlier message of the same dialogue, namely the |t|-th message of the party selected by the sign of t, whose performative lists the new message's performative among its valid replies. If the messages of that party are numbered without gaps, that earlier message is the one with id t.", "quantifier": "all rule sets, all reachable stores, all dialogues, all positions", "why_tests_cant": "Invariant over every history.", "anchors": ["libs/go/aealite/protocols/dialogue.go: validateMessageTarget, getMessageById"]}
{"id": "C07", "title": "History is append-only", "statement": "Any API call leaves the ordered message history of every dialogue either unchanged or extended by exactly one message at the end, extends at most one dialogue, and a call that reports an error extends none.", "quantifier": "all reachable stores, all API calls with all arguments", "why_tests_cant": "Needs all calls in all states.", "anchors": ["libs/go/aealite/protocols/dialogue.go: update, Reply", "libs/go/aealite/protocols/dialogues.go: Update, createDialogue"]}
{"id": "C08", "title": "Dialogues with other counterparties are isolated", "statement": "Processing a message received from address X changes no dialogue whose counterparty is not X: neither messages, label, nor membership in the store.", "quantifier": "all reachable stores, all received messages", "why_tests_cant": "Universal over states and adversarial messages.", "anchors": ["libs/go/aealite/protocols/dialogues.go: Update, completeDialogueReference, GetDialogue"]}
{"id": "C09", "title": "Reply produces the correctly addressed next message", "statement": "If Reply succeeds, the returned message is from the agent to the dialogue's counterparty, carries the dialogue's reference, the next outgoing id and the requested performative, targets the given message (or the most recent message when none is given), and is exactly what was appended; if Reply reports an error the dialogue is unchanged.", "quantifier": "all dialogues, all reply arguments", "why_tests_cant": "Universal over dialogue states and over the four argument combinations.", "anchors": ["libs/go/aealite/protocols/dialogue.go: Reply"]}
{"id": "C10", "title": "LastMessage is the most recent message", "statement": "In every dialogue the last-message accessor returns the message most recently appended, by whichever party, and the last-incoming and last-outgoing accessors return the latest message of each party.", "quantifier": "all reachable stores, all dialogues", "why_tests_cant": "Depends on id signs staying disjoint for the two directions in all histories.", "anchors": ["libs/go/aealite/protocols/dialogue.go: LastMessage"]}
{"id": "C11", "title": "Store indexes agree", "statement": "After any sequence of API calls in which Reply is used on dialogues that are still stored, the dialogues listed for a counterparty are exactly the stored dialogues whose label names that counterparty, each listed once; every stored dialogue is stored under its own current label and under no other. A caller that goes on replying in a dialogue that has left the store, and reuses references, can break the agreement.", "quantifier": "all rule sets, all nonce values (including collisions and failures of the random source), all call sequences", "why_tests_cant": "Index corruption would appear only after particular add / complete / remove orders.", "anchors": ["libs/go/aealite/protocols/storage.go: AddDialogue, RemoveDialogue, removeDialogueFromArray, GetDialoguesWithCounterparty"]}
{"id": "C12", "title": "No dialogue is ever overwritten", "statement": "Creating a dialogue, receiving an opening message or completing a reference never replaces or drops a different dialogue that is already stored, even when nonces collide: a stored dialogue stays stored until a terminal message enters it and terminal dialogues are not kept.", "quantifier": "all reachable stores, all nonce values, all calls", "why_tests_cant": "Tests cannot force collisions of random nonces in all states.", "anchors": ["libs/go/aealite/protocols/dialogues.go: create, createSelfInitiated, createOpponentInitiated, completeDialogueReference"]}
{"id": "C13", "title": "Label identity is stable", "statement": "During the whole life of a dialogue its starter reference, counterparty and starter address never change; the responder reference changes at most once, from unassigned to an assigned value; both by every API call.", "quantifier": "all reachable stores, all later call sequences", "why_tests_cant": "Whole-history property.", "anchors": ["libs/go/aealite/protocols/dialogue.go: updateDialogueLabel", "libs/go/aealite/protocols/dialogues.go: completeDialogueReference"]}
{"id": "C14", "title": "A rejected message can still rename a dialogue", "statement": "The first message of the counterparty carrying a responder reference completes the dialogue's label with that reference even when the message itself is rejected, and from then on messages of the counterparty carrying any other responder reference find no dialogue.", "quantifier": "all stores with an incomplete self-started dialogue, all rejected messages from its counterparty, all later references", "why_tests_cant": "Needs the composition of a rejected call with all later calls.", "anchors": ["libs/go/aealite/protocols/dialogues.go: Update, completeDialogueReference, GetDialogue"]}
{"id": "C15", "title": "Outcome of a failed Create", "statement": "Creating a dialogue with a performative that is not an allowed opening reports no error, returns the message but no dialogue, and leaves an empty dialogue in the store.", "quantifier": "all reachable stores, all counterparties, all non-initial performatives, all fresh nonces", "why_tests_cant": "Universal over states; concerns a silent outcome.", "anchors": ["libs/go/aealite/protocols/dialogues.go: Create, createDialogue"]}
{"id": "C16", "title": "A rejected opening poisons its reference", "statement": "If an opening message from a counterparty is rejected, no dialogue remains in the store for it, but every later opening message from that counterparty with the same starter reference, valid or not, is rejected too.", "quantifier": "all reachable stores, all rejected openings, all later call sequences, all retries", "why_tests_cant": "Whole-history property of the store.", "anchors": ["libs/go/aealite/protocols/dialogues.go: Update, create", "libs/go/aealite/protocols/storage.go: RemoveDialogue, IsInIncomplete"]}
{"id": "C17", "title": "Terminal and active dialogues partition the store", "statement": "After any calls, every stored dialogue is listed exactly once, either among the active or among the terminal dialogues. When terminal dialogues are not kept, a dialogue that receives a terminal message through the store is gone from every index as soon as the call returns; when they are kept it is listed as terminal. Only a terminal message makes a dialogue terminal, but a kept terminal dialogue becomes active again when its reference is completed.", "quantifier": "all reachable stores, both keep settings, all messages with terminal performatives", "why_tests_cant": "Invariant across all histories.", "anchors": ["libs/go/aealite/protocols/storage.go: GetDialoguesInTerminalState, GetDialoguesInActiveState, DialogueTerminalStateCallback"]}
{"id": "C18", "title": "Crash safety of the dialogue API", "statement": "If the incoming messages of every dialogue are numbered without gaps, Reply is used on stored dialogues and no argument is the least machine integer, no API call crashes. A counterparty can however produce a gap that the library accepts, after which a reply with default target crashes the process.", "quantifier": "all reachable stores, all calls, all adversarial messages", "why_tests_cant": "Requires adversarial histories of unbounded length.", "anchors": ["libs/go/aealite/protocols/dialogue.go: getMessageById, validateMessageTarget, Reply"]}
{"id": "C19", "title": "Dialogue label string form", "statement": "Parsing the string form of a label gives back the label if and only if none of its four parts contains an underscore; in every other case parsing reports an error. Whatever parses is the string form of the label obtained.", "quantifier": "all labels (all four byte strings)", "why_tests_cant": "Universal over strings.", "anchors": ["libs/go/aealite/protocols/dialogue_label.go: String, FromString"]}
{"id": "C20", "title": "Dialogue label JSON form", "statement": "For every label and every order in which the runtime emits the four members, decoding the JSON form gives back the label if and only if every part is valid UTF-8 without quotes, backslashes and control characters; there are labels with a quote for which the JSON form does not decode or decodes to a different label.", "quantifier": "all such labels, all member orders", "why_tests_cant": "Map iteration order is random; strings are unbounded.", "anchors": ["libs/go/aealite/protocols/dialogue_label.go: MarshalJSON, UnmarshalJSON"]}
{"id": "C21", "title": "Dialogue message survives the envelope", "statement": "Wrapping a dialogue message into an envelope and reading it back yields the same sender, recipient, reference, id, target and content for every message whose id and target fit in 32 bits; ids outside that range come back reduced modulo 2^32. Making and encoding the envelope fails exactly when a string is not valid UTF-8.", "quantifier": "all messages, all contents", "why_tests_cant": "Universal over byte strings and integers.", "anchors": ["libs/go/aealite/protocols/message.go: MakeResponseEnvelope, GetDialogueMessageWrappedAndSetContentFromEnvelope", "libs/go/aealite/protocols/base.proto"]}
{"id": "C22", "title": "Decoding an envelope's dialogue message never crashes", "statement": "For every envelope and every protocol decoder the reader either returns a message whose sender, recipient are those of the envelope or an error; in particular a payload without dialogue message is an error.", "quantifier": "all payload byte strings, all content decoders", "why_tests_cant": "All byte strings.", "anchors": ["libs/go/aealite/protocols/message.go: GetDialogueMessageWrappedAndSetContentFromEnvelope, InitFromProtobufAndPerfofrmative, GetPerformative"]}
{"id": "C23", "title": "Wire round trip of envelopes, agent records and ACN messages", "statement": "For every envelope, agent record and agent-communication-network message with valid UTF-8 text fields, decoding the encoding yields the same value, and encoding fails exactly when a text field is not valid UTF-8.", "quantifier": "all values of the message types", "why_tests_cant": "Unbounded data.", "anchors": ["libs/go/libp2p_node/protocols/acn/v1_0_0/acn.proto", "libs/go/libp2p_node/aea/envelope.proto", "libs/go/libp2p_node/acn/utils.go: EncodeAcnEnvelope, DecodeAcnMessage"]}
{"id": "C24", "title": "Peer stream framing is transparent to fragmentation", "statement": "A message written to a libp2p stream is read back unchanged however the transport cuts the stream into pieces, and nothing is ever returned that was not written completely as one message; bytes that follow it in the stream stay there if they arrive in pieces of their own, otherwise a message that follows immediately may be swallowed by the first read and lost.", "quantifier": "all messages below the size limit, all fragmentations", "why_tests_cant": "All schedules of partial reads.", "anchors": ["libs/go/libp2p_node/utils/utils.go: ReadBytes, WriteBytes, StreamPipe"]}
{"id": "C25", "title": "Delegate / agent TCP framing and partial reads", "statement": "Reading a frame from a TCP connection returns exactly the written message if both the header and the body arrive in one read each; if the body arrives in more than one piece the reader reports success with a message of the announced length whose missing part is zero bytes, and the remaining bytes stay on the connection and are taken for a new header; if only the first header byte arrives, an empty message is reported.", "quantifier": "all messages, all fragmentations", "why_tests_cant": "All schedules of partial reads.", "anchors": ["libs/go/libp2p_node/utils/utils.go: ReadBytesConn, WriteBytesConn", "libs/go/libp2p_node/aea/pipe.go: TCPSocketChannel", "libs/go/aealite/connections/tcpsocket.go: TCPSocketChannel.Read, Write"]}
{"id": "C26", "title": "Frame size limits", "statement": "The bounded readers never accept a message larger than the limit, and the TCP reader leaves its body unread; the node's writers accept exactly the messages up to 2^31-1 bytes; hence every message above the limit that a writer accepts is refused by the peer. An empty message is accepted by the node's writer but puts nothing on the wire. The agent library's writer has no limit: from 2^32-4 bytes on it crashes or announces a wrong length.", "quantifier": "all sizes", "why_tests_cant": "All sizes including 2^31 and 2^32 boundaries cannot be allocated in tests.", "anchors": ["libs/go/libp2p_node/utils/utils.go: ReadBytesConn, WriteBytesConn, ReadBytes, WriteBytes"]}
{"id": "C27", "title": "Agent record file: no lost and no invented records", "statement": "Reloading the agent record file after any sequence of completed saves yields for each address the last record saved for it and the peer id of that record, nothing for other addresses, and a count equal to the number of saves; of the records that can be read from a message all but the empty one can be saved. Of all byte strings exactly the sequences of records behind their lengths, with peer keys that are keys, are loaded, and no file makes loading panic as long as there is memory for the lengths in it (up to 4 GiB are allocated for one).", "quantifier": "all finite sequences of records, all byte strings", "why_tests_cant": "Unbounded histories.", "anchors": ["libs/go/libp2p_node/dht/dhtpeer/dhtpeer.go: saveAgentRecordToPersistentStorage, initAgentRecordPersistentStorage"]}
{"id": "C28", "title": "Agent record file: crash during a save", "statement": "If the process stops at an arbitrary byte of an arbitrary save, the next start succeeds if and only if the file ends exactly at the end of a record, and then has exactly the records saved completely; for every other crash point the start fails with an error, even though all earlier records are intact.", "quantifier": "all histories, all crash points (byte positions)", "why_tests_cant": "Every crash point of every history.", "anchors": ["libs/go/libp2p_node/dht/dhtpeer/dhtpeer.go: saveAgentRecordToPersistentStorage, initAgentRecordPersistentStorage"]}
{"id": "C29", "title": "Proof of representation is sound and complete", "statement": "A record is accepted for an address and peer key if and only if its ledger is supported, its address is the requested one, its peer key is the expected one, its address is derived from its public key, and its signature over the peer key verifies under the agent's public key; acceptance is reported with status SUCCESS and no error, every refusal with an error and one of the four specific error codes.", "quantifier": "all records, all addresses, all peer keys, all signature and hash functions", "why_tests_cant": "Universal over cryptographic functions and data.", "anchors": ["libs/go/libp2p_node/dht/dhtnode/utils.go: IsValidProofOfRepresentation"]}
{"id": "C30", "title": "Proof of representation check can be crashed only through malformed Ethereum fields", "statement": "Checking a record crashes if and only if the record's ledger is ethereum, address and peer key match, and either its public key is shorter than two characters or (the address being derived from the public key) its signature decodes to fewer than 65 bytes; no other record crashes the check, but a missing record does.", "quantifier": "all records", "why_tests_cant": "All byte strings.", "anchors": ["libs/go/libp2p_node/dht/dhtnode/utils.go: IsValidProofOfRepresentation", "libs/go/libp2p_node/utils/utils.go: EthereumAddressFromPublicKey, RecoverAddressFromEthereumSignature"]}
{"id": "C31", "title": "Which ACN messages crash the receiver", "statement": "Handling an arbitrary frame on an established delegate connection crashes the process if and only if the frame decodes to a status message without body; every other byte string is answered or ignored. The first frame of a connection crashes it if and only if its bytes are read as a register message without record, or with an Ethereum record naming this peer's key whose public key has fewer than two bytes, or whose address fits its key and whose signature is hexadecimal of fewer than 65 bytes. So six bytes sent to the delegate port crash a node, however they are split after the first four.", "quantifier": "all byte strings", "why_tests_cant": "All byte strings.", "anchors": ["libs/go/libp2p_node/aea/utils.go: HandleAcnMessageFromPipe", "libs/go/libp2p_node/acn/utils.go: DecodeAcnMessage, ReadAgentRegistrationMessage", "libs/go/libp2p_node/dht/dhtpeer/dhtpeer.go: handleNewDelegationConnection"]}
{"id": "C32", "title": "Every request frame gets exactly one matching status", "statement": "Reading a frame where an envelope, lookup or registration is expected sends back nothing for a well-formed expected message and exactly one error status otherwise (code 4 if the frame does not decode, 2 if it is another message); the single exception is a status message where an envelope is expected, which is refused without an answer. Every message written by the sending side is accepted by the matching reader.", "quantifier": "all byte strings, all expectation contexts", "why_tests_cant": "All byte strings.", "anchors": ["libs/go/libp2p_node/acn/utils.go: ReadLookupRequest, ReadEnvelopeMessage, ReadAgentRegistrationMessage, SendAcnError, SendAcnSuccess"]}
{"id": "C33", "title": "Acknowledgement misattribution", "statement": "Waiting for a delivery status returns the oldest status not yet consumed on that connection. Therefore success is reported for an envelope exactly if the oldest unconsumed status is a success, and after a wait that timed out, a late status is taken as the status of the next envelope.", "quantifier": "all histories of sends, statuses and timeouts", "why_tests_cant": "Schedule dependent.", "anchors": ["libs/go/libp2p_node/dht/dhtpeer/dhtpeer.go: AwaitAcnStatus, AddAcnStatusMessage", "libs/go/libp2p_node/acn/utils.go: WaitForStatus, SendEnvelopeMessageAndWaitForStatus", "libs/go/aealite/connections/p2pclient.go"]}
{"id": "C34", "title": "Mailbox delivery is FIFO and at most once", "statement": "Since the mailbox of an address was last opened and until it is closed, the envelopes accepted for it are exactly the ones handed out to polls, in order and each once, followed by the ones still waiting; at most 1000 wait, a full or closed mailbox refuses without change, and a poll of a live session gets the oldest. Registering the address again drops what is waiting, so an accepted envelope need not ever be handed out.", "quantifier": "all histories of registrations, polls, deliveries by any number of sessions", "why_tests_cant": "Whole-history property.", "anchors": ["libs/go/libp2p_node/dht/dhtpeer/mailbox.go: RouteEnvelope, apiGetEnvelope, apiRegister, apiUnregister"]}
{"id": "C35", "title": "Mailbox access requires a valid session", "statement": "An envelope is handed out only to a session created by a registration whose record had a valid proof of representation for that address, and not after that session was unregistered; requests without a live session are answered 400 and change nothing; a session lives until it is unregistered itself. But its mailbox does not: ending another session of the same agent, or an unregister request overtaken by the new registration, removes it.", "quantifier": "all histories of HTTP requests", "why_tests_cant": "Whole-history property.", "anchors": ["libs/go/libp2p_node/dht/dhtpeer/mailbox.go: apiRegister, apiGetEnvelope, apiSendEnvelope, apiUnregister"]}
{"id": "C36", "title": "Mailbox clients can send as another local client", "statement": "Sending through the mailbox succeeds in handing the envelope to routing for every live session, whatever sender the envelope names; so a client can send under any address; no other request has envelopes routed.", "quantifier": "all states with a live session, all envelopes", "why_tests_cant": "Universal over states; a security expectation that fails.", "anchors": ["libs/go/libp2p_node/dht/dhtpeer/mailbox.go: apiSendEnvelope", "libs/go/libp2p_node/dht/dhtpeer/dhtpeer.go: getEnvelopeAcnRecord"]}
{"id": "C37", "title": "Delegate clients can send only as themselves", "statement": "Every envelope routed on behalf of a delegate connection was received on it and names as sender the address for which that connection presented a valid proof of representation; every record the node keeps for a delegate client proves the address it is stored under.", "quantifier": "all frame sequences on all connections, all interleavings", "why_tests_cant": "All interleavings and byte strings.", "anchors": ["libs/go/libp2p_node/dht/dhtpeer/dhtpeer.go: handleNewDelegationConnection"]}
{"id": "C38", "title": "Per-pair order of delegate envelopes", "statement": "While an address is registered on one connection only, its envelopes to the same recipient are handed to routing in the order received, each at most once; none is lost except that one is dropped exactly when 1000 envelopes of that pair are waiting. With two connections for one address an acknowledged envelope can be lost for good.", "quantifier": "all frame sequences, all schedules of the reader and the per-pair routing goroutines", "why_tests_cant": "All goroutine schedules.", "anchors": ["libs/go/libp2p_node/dht/dhtpeer/dhtpeer.go: handleNewDelegationConnection"]}
{"id": "C39", "title": "Reconnecting delegate client and the old connection's cleanup", "statement": "After an address is registered on a second connection, closing the first removes the address from the table although the second is open; the second client is then unreachable, and its connection hangs for ever at its next status message. While no second registration of an address happens, the address is in the table from registration until its connection's clean-up and the connection never hangs; a failed announcement closes the connection but leaves the address in the table.", "quantifier": "all interleavings of connects, registrations and disconnects", "why_tests_cant": "All interleavings.", "anchors": ["libs/go/libp2p_node/dht/dhtpeer/dhtpeer.go: handleNewDelegationConnection"]}
{"id": "C40", "title": "Routing decision", "statement": "An envelope whose sender is not represented here is refused without effect. Any other goes to exactly one place, the first applicable of mailbox, this node's own agent, delegate connection, relayed client, network lookup, with the caller told the outcome there. On the network route the caller always gets nil unless the lookup hangs or crashes: an envelope that was not confirmed is put on the slow queue, or dropped when the node is closing; as the confirmation may have been lost, the same envelope can reach a peer twice.", "quantifier": "all node states, all envelopes, all outcomes of external calls", "why_tests_cant": "Universal over states and outcomes.", "anchors": ["libs/go/libp2p_node/dht/dhtpeer/dhtpeer.go: RouteEnvelope, getEnvelopeAcnRecord"]}
{"id": "C41", "title": "Ongoing-routes gauge", "statement": "The gauge of ongoing routing requests is balanced by every returning route call except: it stays one too high after a refused sender, a mailbox delivery or a missing agent handler, and ends one too low when a network lookup found a peer and the envelope was not confirmed; a retry from the slow queue lowers it by one exactly if its lookup found a peer. The success counter is incremented exactly for envelopes destined to a delegate connection, whatever came of it, and for those the own agent took.", "quantifier": "all node states, envelopes, outcomes", "why_tests_cant": "All paths.", "anchors": ["libs/go/libp2p_node/dht/dhtpeer/dhtpeer.go: RouteEnvelope, _routeEnvelopeDHTLookup, _routeEnvelopeWithNewStream, slowEnvelopeSendLoop"]}
{"id": "C42", "title": "Incoming peer envelopes: what is authenticated", "statement": "A peer's envelope is passed on exactly if the accompanying record is a valid proof of representation binding the record's address to the sending peer's key; the envelope's own sender field is not compared with it, so a peer with one valid record can deliver envelopes under any sender. An envelope message without record, or with one on which the check crashes, crashes the node, and nothing else does.", "quantifier": "all byte strings from all peers", "why_tests_cant": "Universal over adversarial input; a security expectation that fails.", "anchors": ["libs/go/libp2p_node/dht/common/handlers.go: receiveEnvelopeFromPeer, HandleAeaEnvelopeStream"]}
{"id": "C43", "title": "Meaning of a SUCCESS reply to a peer's envelope", "statement": "A peer node answers SUCCESS exactly if the envelope was put in a mailbox, acknowledged by the delegate client in charge, or passed to the own agent's handler, whose failure is ignored; it answers UNKNOWN_AGENT_ADDRESS exactly if no local client matches. A client node answers SUCCESS if and only if its agent's handler succeeded. What is not accepted is never handled.", "quantifier": "all node states, all envelopes", "why_tests_cant": "Universal over states.", "anchors": ["libs/go/libp2p_node/dht/dhtpeer/dhtpeer.go: HandleAeaEnvelope", "libs/go/libp2p_node/dht/dhtclient/dhtclient.go: HandleAeaEnvelope"]}
{"id": "C44", "title": "Lookup answers carry a valid record for the requested address", "statement": "Every record a node sends in answer to a lookup for address A is a valid proof of representation for A by the peer named in it, if the records it loaded at start were; it is the own record, one presented in a registration or loaded, or one given by a provider. Records and relay entries are never removed while the node runs, and the record file keeps holding valid proofs. Every frame on an address stream is answered by exactly one message: a record, or a status saying that the agent is unknown, that the payload was unexpected or that the frame could not be read.", "quantifier": "all histories of registrations, disconnects, lookups", "why_tests_cant": "Whole-history invariant.", "anchors": ["libs/go/libp2p_node/dht/dhtpeer/dhtpeer.go: HandleAeaAddressRequest, lookupAddressDHT, handleAeaRegisterStream"]}
{"id": "C45", "title": "Network lookup result", "statement": "A network lookup returns a peer only with a record that some provider gave, valid for the requested address, and the peer named in it; the first provider that gives one decides. If no provider gives one, the result is an error exactly if the stream to the last provider tried could not be opened; otherwise it is no peer, no record and no error. A provider that answers with a status or lookup response without content crashes the node.", "quantifier": "all provider sequences, all provider answers", "why_tests_cant": "All sequences of provider behaviours.", "anchors": ["libs/go/libp2p_node/dht/dhtpeer/dhtpeer.go: lookupAddressDHT"]}
{"id": "C46", "title": "Announcement of addresses", "statement": "An address is put on the network at most once per node life unless two goroutines pass the announced-check for it before either marks it, in which case it is put there twice; once marked, only goroutines already past the check do so, and a failed announcement is never repeated. Only the own address and addresses with a proof of representation presented or loaded are announced, and none before a peer was joined or notified.", "quantifier": "all interleavings of registrations, disconnects, notifications, announcement outcomes", "why_tests_cant": "Whole-history.", "anchors": ["libs/go/libp2p_node/dht/dhtpeer/dhtpeer.go: RegisterAgentAddress, setAddressAnnounced, IsAddressAnnounced"]}
{"id": "C47", "title": "Client node: an envelope to the own address is not delivered exactly once", "statement": "Routing an envelope addressed to the client's own agent hands it to the agent and, if the agent takes it, continues with the network route, so nil means it was also sent to and confirmed by the peer proved to represent the address. Any envelope leaves the client only under its own address, at most once per call, only to the peer proved to represent the recipient, and nil is returned exactly if that peer confirmed it (or there is no agent handler for an own envelope). An answer without content crashes the client.", "quantifier": "all client states, all envelopes, all outcomes", "why_tests_cant": "Universal.", "anchors": ["libs/go/libp2p_node/dht/dhtclient/dhtclient.go: RouteEnvelope"]}
{"id": "C48", "title": "Client node retry loops do not stop at the deadline", "statement": "The stream and bootstrap retry loops return when an attempt made before the deadline succeeds; once the deadline has passed without success they never return. The loop reconnecting to the relay peer stops exactly when it connects or the client is closing. A stream opened by a retry is given up exactly if registering again fails.", "quantifier": "all sequences of attempt outcomes, all deadlines", "why_tests_cant": "Non-termination cannot be tested.", "anchors": ["libs/go/libp2p_node/dht/dhtclient/dhtclient.go: newStreamLoopUntilTimeout, bootstrapLoopUntilTimeout"]}
{"id": "C49", "title": "Agent registration retries", "statement": "Registration at the node makes at most five attempts, waiting 0.5, 1, 2 and 4 seconds (and less than 0.1 s more) between them, and does nothing after the first that is not refused; it reports success if and only if some attempt among the first five was accepted after only refused ones, and crashes exactly if such an attempt is answered by a status without content. The text of the error list crashes for a list with a nil before an error.", "quantifier": "all sequences of attempt outcomes", "why_tests_cant": "All outcome sequences.", "anchors": ["libs/go/aealite/connections/p2pclient.go: registerWithRetry, Error"]}
{"id": "C50", "title": "Retry delays do not overflow", "statement": "For every configured delay up to 2^62 ns (and one for what is not positive) the back-off delay is the configured one doubled once per attempt up to a limit between 2^61 and 2^63 ns, so it is positive and never decreases; a delay of 2^63 - 1 ns becomes negative at the first retry and zero after 64. The combined delay of non-negative delays saturates instead of wrapping. The random part is below the configured one, and crashes if that is not positive.", "quantifier": "all delays, all attempt numbers, all jitter values, all roundings of the logarithm", "why_tests_cant": "Overflow boundaries.", "anchors": ["libs/go/aealite/connections/p2pclient.go: BackOffDelay, CombineDelay, RandomDelay"]}
{"id": "C51", "title": "Signature text form loses leading zero bytes", "statement": "Converting a DER signature (r,s) to the text form and back recovers (r,s) if and only if the byte length of s equals that of r or exceeds it by one.", "quantifier": "all positive integers r, s below 2^256", "why_tests_cant": "Fails for about one signature in 128 at random.", "anchors": ["libs/go/aealite/wallet/utils.go: ConvertDEREncodedSignatureToStr, ConvertStrEncodedSignatureToDER", "libs/go/libp2p_node/utils/utils.go: ConvertStrEncodedSignatureToDER"]}
{"id": "C52", "title": "Ethereum checksum address", "statement": "The checksummed address is 0x followed by the 40 hex digits of the address, letters being upper case exactly where the digest digit is at least 8; lower-casing it gives back the plain hex address.", "quantifier": "all 20-byte addresses, all digest functions", "why_tests_cant": "All addresses.", "anchors": ["libs/go/aealite/wallet/utils.go: encodeChecksumEIP55", "libs/go/libp2p_node/utils/utils.go: encodeChecksumEIP55"]}
{"id": "C53", "title": "Histogram metrics", "statement": "After any observations each bucket's count is the number of observations not above its bound and the last count is that of all observations, as 64-bit numbers. If the bounds ascend, as the node's do, counts never decrease along the buckets. A NaN is counted in the last bucket only.", "quantifier": "all bucket lists, all observation sequences", "why_tests_cant": "Unbounded histories.", "anchors": ["libs/go/libp2p_node/dht/monitoring/file.go: FileHistogram.Observe, NewHistogram"]}
{"id": "C54", "title": "Node URI parsing", "statement": "A URI without a colon is refused. Otherwise the host is the text before the first colon and the port is read from the text up to the next colon: a decimal number of at most 65535 exactly, a larger one as 65535 without error, anything else as 0 or 65535, so a mistyped port is silently another port; every port is read back from its decimal form. Init gives a configuration exactly for acceptable environments, an error otherwise and never crashes; addresses, record fields and entry peers are those of the environment.", "quantifier": "all strings, all environments, all outcomes of the port test", "why_tests_cant": "All strings.", "anchors": ["libs/go/libp2p_node/aea/api.go: AeaApi.init"]}
{"id": "C55", "title": "Set operations", "statement": "Set membership after any sequence of Add, Remove, AddFromArray, Copy and Difference is that of mathematical sets, the size is the number of distinct members, and a copy is independent of the original.", "quantifier": "all element types with decidable equality, all operation sequences", "why_tests_cant": "All operation sequences.", "anchors": ["libs/go/aealite/helpers/base.go: Set"]}
{"id": "C56", "title": "Which dialogue openings are accepted", "statement": "An opening message from another agent whose starter reference has not been seen from that agent before is accepted if and only if its target is 0 and its performative is an allowed initial one; the new dialogue then is labelled with the sender, the sender's reference and the fresh responder reference, has the role computed from the opening, and holds exactly that message.", "quantifier": "all reachable stores, all openings, all nonces, all role functions", "why_tests_cant": "Universal over stores and messages.", "anchors": ["libs/go/aealite/protocols/dialogues.go: Update, createOpponentInitiated, create", "libs/go/aealite/protocols/dialogue.go: basicValidationInitialMessage"]}
{"id": "C57", "title": "Unknown protobuf fields are ignored", "statement": "Putting a well-formed field with a number the message type does not have in front of any input leaves the result of decoding an envelope, an agent record or an ACN message unchanged.", "quantifier": "all byte strings, all unknown field numbers, all varint and length-delimited values", "why_tests_cant": "All inputs; forward compatibility between versions of the two programs.", "anchors": ["libs/go/libp2p_node/aea/envelope.proto", "libs/go/libp2p_node/protocols/acn/v1_0_0/acn.proto"]}
{"id": "C58", "title": "Agent addresses of different ledgers never coincide", "statement": "An address is derived for at most one ledger; two public keys of one ledger give the same address only if their address digests collide; and the ledger can be read off the address (fetch1 and 44 characters, cosmos1 and 45, 0x and 42).", "quantifier": "all public keys, all digest functions of the right output length", "why_tests_cant": "All keys.", "anchors": ["libs/go/libp2p_node/utils/utils.go: AgentAddressFromPublicKey, FetchAIAddressFromPublicKey, EthereumAddressFromPublicKey"]}
{"id": "C59", "title": "Closing the status queue while it is in use crashes the agent", "statement": "After the client has been disconnected, a send that is still waiting for its status with no status queued crashes the process, and so does a status that arrives late; while the queue is open no sequence of arrivals, waits and timeouts crashes.", "quantifier": "all queue states, all interleavings of arrivals, waits, timeouts and closing", "why_tests_cant": "A race between Disconnect and a send.", "anchors": ["libs/go/aealite/connections/p2pclient.go: Disconnect, SendEnvelope, AddAcnStatusMessage", "libs/go/aealite/connections/acn.go: WaitForStatus"]}
{"id": "C60", "title": "A delegate client's SUCCESS only means the frame was understood", "statement": "Every envelope accepted from a delegate client is answered SUCCESS before it is queued, an envelope naming another sender is answered SUCCESS and discarded without any other effect, and nothing that happens to an envelope after its frame was read is ever reported to the client.", "quantifier": "all schedules of the node's goroutines, all client inputs", "why_tests_cant": "Needs all interleavings and inputs.", "anchors": ["libs/go/libp2p_node/dht/dhtpeer/dhtpeer.go: handleNewDelegationConnection", "libs/go/libp2p_node/aea/utils.go: HandleAcnMessageFromPipe"]}
{"id": "C61", "title": "An agent's receive loop", "statement": "What Get has returned, what is queued and the envelope about to be queued are together exactly the envelopes read for the agent's own address, in the order read. A read that fails ends the loop and closes the socket, but the client still counts as connected and Get blocks for ever. Once Disconnect has begun, failing reads never end the loop. The process crashes only if Disconnect has closed the queue while an envelope was about to be queued, or is called again; the former can happen.", "quantifier": "all interleavings of reads, Get and Disconnect", "why_tests_cant": "All interleavings; blocking for ever and not terminating cannot be tested.", "anchors": ["libs/go/aealite/connections/p2pclient.go: listenForEnvelopes, Get, Disconnect, Connect"]}
{"id": "C62", "title": "What an agent verifies about its node's TLS session", "statement": "The connection is accepted exactly if the last certificate of the session carries a key signed by the configured peer key. TLS authenticates the first certificate, so anyone who presents the node's certificate behind one of their own, with the signature the node sends to everyone, is accepted. A last certificate with another kind of key crashes the agent before anything is verified.", "quantifier": "all certificate lists, all signatures, all verification functions", "why_tests_cant": "Authentication must hold for all inputs.", "anchors": ["libs/go/aealite/connections/tcpsocket.go: TCPSocketChannel.Connect"]}
{"id": "C63", "title": "The node's connection to its own agent", "statement": "The envelopes a node routes for its own agent are exactly those the agent sent under the address of its record, in that order and each once; other envelopes are dropped silently. Put takes envelopes for the agent in call order and the send loop handles each once in that order, its failure being only logged, so a nil from Put means queued. When a read from the agent's pipe fails the listener closes both queues for good and every later Put crashes the node; with a record that is the only crash here. A node with an agent but no record crashes with the agent's first envelope. In standalone mode nothing is queued, routed or sent.", "quantifier": "all interleavings of reads from the pipe with the listener's, the send loop's, the router's and Put's steps, all outcomes", "why_tests_cant": "the crash needs a pipe failure before a delivery; the orders of the two goroutines and the handlers' calls are unbounded", "anchors": ["libs/go/libp2p_node/aea/api.go:136-169", "libs/go/libp2p_node/aea/api.go:334-427", "libs/go/libp2p_node/libp2p_node.go:150-168"]}
{"id": "C64", "title": "File metrics: replacement and life cycle", "statement": "What the file monitoring reports under a name is what was added through the handle of the last metric created under it, since its creation; additions through an older handle of the same name are lost. Reporting starts at most once; it does not resume after Stop; Stop crashes if reporting was never started, which is always so in the node as it does not write the file, or was stopped before.", "quantifier": "all sequences of creations, additions, starts, stops and turns of the writing loop", "why_tests_cant": "unbounded histories of creations and additions; the crash is in an order no test runs", "anchors": ["libs/go/libp2p_node/dht/monitoring/file.go:30-87", "libs/go/libp2p_node/dht/monitoring/file.go:142-226"]}
{"id": "C65", "title": "Named timers", "statement": "Used one call at a time, GetTimerNamed gives the time since the last NewTimerNamed of that name and ends the timer: without a start since the last successful or failed get it gives an error. In any interleaving of calls a result is the time since the latest start before it read. But two concurrent gets can both succeed for one start, and a get can end a timer that was restarted after it read.", "quantifier": "all sequences and all interleavings of starts and gets, all clock readings", "why_tests_cant": "the double result and the lost restart are races between the read lock and the write lock", "anchors": ["libs/go/libp2p_node/dht/monitoring/service.go:51-84"]}
{"id": "C66", "title": "Peer or client", "statement": "A node runs as a full peer exactly if its public URI has a non-zero port, and as a client through its entry peers otherwise, also when a public URI was given whose port is malformed or 0. The registration delay is cut to whole seconds. The records of the environment are not verified when the configuration is read.", "quantifier": "all environments and configurations", "why_tests_cant": "a wrong setting is accepted silently; all settings must be considered", "anchors": ["libs/go/libp2p_node/libp2p_node.go: main", "libs/go/libp2p_node/aea/api.go: Init"]}
{"id": "C67", "title": "What a started agent has and what its node will say", "statement": "An agent whose InitFromEnv succeeded holds the key and address of its private key on fetchai, with the key and address of the environment equal or absent and a proof of representation signed by the key of the environment. If address and key are given and the proof is on fetchai, every node with the peer key named accepts the record for the wallet's address. If the address is not given, or the proof is on another ledger, the agent starts all the same and no node accepts it.", "quantifier": "all environments, all key derivation and verification functions", "why_tests_cant": "must hold for all keys and all settings; the refusal only shows at another machine", "anchors": ["libs/go/aealite/wallet/wallet.go: InitFromEnv", "libs/go/aealite/connections/p2pclient.go: InitFromEnv", "libs/go/aealite/agent.go: InitFromEnv"]}
{"id": "C68", "title": "Joining the network needs every entry peer", "statement": "A peer with entry peers starts exactly if each entry names a peer that came into the routing table and was notified, and at least one connection was made; without entry peers it starts alone. One reachable entry peer of several is not enough. It crashes exactly if an entry is not a multiaddress and all before it name peers.", "quantifier": "all lists of entry peers, all outcomes of connecting, waiting and notifying", "why_tests_cant": "all combinations of failing peers", "anchors": ["libs/go/libp2p_node/dht/dhtpeer/dhtpeer.go: New", "libs/go/libp2p_node/utils/utils.go: BootstrapConnect", "libs/go/libp2p_node/dht/dhtpeer/options.go: BootstrapFrom"]}
{"id": "C69", "title": "Stopping a node", "statement": "A call of Close on a peer node that nothing interferes with ends, with every queue and every connection in the table closed. The process crashes exactly if Close is called a second time, if a delegate handler holding an envelope reaches a pair queue Close has closed, or if a route call that looked at the closing flag before it was set reaches the closed slow queue; one call of Close suffices. If nobody is on the way to a queue when the flag is set there is no crash. Envelopes in a pair's queue are still routed, in order; those in the slow queue when the flag is set are never sent. Close closes exactly the connections in the table: a connection replaced by a reconnection is not closed and goes on being served, and neither is the new one if the handler of the old one has ended before, because that takes the new entry out of the table.", "quantifier": "all interleavings of delegate handlers, pair goroutines, route calls, the slow queue's loop and calls of Close", "why_tests_cant": "the crashes are races between Close and the other goroutines", "anchors": ["libs/go/libp2p_node/dht/dhtpeer/dhtpeer.go: Close, handleNewDelegationConnection, RouteEnvelope, slowEnvelopeSendLoop"]}
{"id": "C70", "title": "An envelope arrives as it was sent", "statement": "The frame an agent's Put writes, up to 3 MiB and arriving in one piece, is read by its node as exactly the envelope put and acknowledged. What the node writes to another delegate client while routing is read there as exactly that envelope, whose sender address was proved on the connection it came from. What it writes to another node for an envelope of one of its clients or its own agent passes that node's check of the proof, is handed to its handler as exactly that envelope, and is answered by the handler's verdict. An envelope acknowledged by the first node can be refused by the second because the attached record pushes it over 3 MiB.", "quantifier": "all envelopes, histories of the first node, routing states, cuts of the peer stream, signature functions", "why_tests_cant": "crosses three programs; must hold for all contents, sizes and histories", "anchors": ["libs/go/aealite/connections/p2pclient.go: Put, Get", "libs/go/libp2p_node/dht/dhtpeer/dhtpeer.go: handleNewDelegationConnection, RouteEnvelope, handleAeaEnvelopeStream, HandleAeaEnvelope", "libs/go/libp2p_node/utils/utils.go: ReadBytes, WriteBytes"]}
{"id": "C71", "title": "Starting a node", "statement": "New always comes to a result. It succeeds exactly if every option is usable (the last of a kind counts), the key and both addresses are given, the record of the agent, if any, represents the node's key, and host, table, certificate, joining, bootstrapping, notifying, reading the record file, announcing the own address (with entry peers; not needed if it stands in the file) and listening for delegates succeed. It crashes exactly on a malformed entry address, a panic of the proof check, or if only the delegate port cannot be listened on. When it fails the host is left running exactly if the table, the certificate or the record file failed. A node that started did everything in one order, its own address being announced before lookups and envelopes are taken. Its tables hold, for each address, what was registered last after the file was loaded, else what the file holds, else what was registered before; only the first kind is saved. The record of the own agent is kept without its dates.", "quantifier": "all options, all outcomes of the world, all registrations of relay clients meanwhile", "why_tests_cant": "the failures and the registrations can come at any point of the start", "anchors": ["libs/go/libp2p_node/dht/dhtpeer/dhtpeer.go: New, initAgentRecordPersistentStorage, handleAeaRegisterStream", "libs/go/libp2p_node/dht/dhtpeer/options.go"]}
{"id": "C72", "title": "A registered agent is found and reached", "statement": "A node answers a lookup for an agent in its table of delegate clients with a record that proves that it represents the agent, and the answer can always be written, as can every ACN message once read. An agent whose address only one connection registers is in that table all the time its node serves it. Through any number of nodes that know nothing of the agent and ask on, the lookup of another node yields the peer id and record of the agent's node, if the providers tried before are only useless. An envelope to the agent is then written exactly once to a stream to that node and exactly once to the agent's connection, as sent, and success is reported when the agent acknowledges. But an agent that reconnected while its old connection was being cleaned up is served and answered to be unknown; and one whose announcement failed is disconnected but its record still given out.", "quantifier": "all histories of the agent's node, all chains of nodes asking on, all envelopes and signature functions", "why_tests_cant": "the chain of nodes and the histories are unbounded; the failures need an interleaving", "anchors": ["libs/go/libp2p_node/dht/dhtpeer/dhtpeer.go: HandleAeaAddressRequest, lookupAddressDHT, RouteEnvelope, HandleAeaEnvelope, handleNewDelegationConnection", "libs/go/libp2p_node/dht/common/handlers.go"]}
{"id": "C73", "title": "Key texts", "statement": "The text a node or agent gives of a public key is read back as that key and gives its peer id; different keys have different texts. A text is taken for a key exactly if it is hexadecimal, in any case, of a form of the key; the agent's reading of the key of its node also takes such a text with anything behind it that does not start with two digits, and connects as without it. All texts of one key name the same peer, but a record is accepted with one text only, lower case and compressed. A private key is any hexadecimal text (no 0x), and every function derives the same public text from it. The ethereum reading ignores the first two characters, and crashes on a shorter text.", "quantifier": "all texts, all keys, all libraries of curve operations", "why_tests_cant": "must hold for all keys and all malformed texts", "anchors": ["libs/go/libp2p_node/utils/utils.go: PubKeyFromFetchAIPublicKey, FetchAIPublicKeyFromPubKey, BTCPubKeyFromFetchAIPublicKey, IDFromFetchAIPublicKey, KeyPairFromFetchAIKey, FetchAIPublicKeyFromFetchAIPrivateKey, BTCPubKeyFromEthereumPublicKey", "libs/go/aealite/wallet/utils.go", "libs/go/aealite/connections/tcpsocket.go: Connect"]}
{"id": "C74", "title": "Signing and checking", "statement": "A signature of SignFetchAI is accepted under its key by VerifyFetchAISignatureBTC, and a record signed with it by the node, if s has as many bytes as r or one more; otherwise the check sees another pair of numbers, or none. VerifyFetchAISignatureLibp2p accepts nothing the other refuses (for hexadecimal key texts); on 64-byte signatures it gives the same answer exactly if both numbers are at least 2^247 and below 2^255, and reports an error for all others, good or bad. The DER signature used for certificates is always accepted.", "quantifier": "all keys, messages, signatures and curve operations", "why_tests_cant": "fails for a random signature with probability about 1/256 (first) and 1/2 (second)", "anchors": ["libs/go/libp2p_node/utils/utils.go: SignFetchAI, VerifyFetchAISignatureBTC, VerifyFetchAISignatureLibp2p", "libs/go/aealite/wallet/utils.go: SignFetchAI, VerifyFetchAISignatureBTC, VerifyFetchAISignatureLibp2p"]}
{"id": "C75", "title": "Starting a client node", "statement": "New of a client succeeds exactly if every option is usable (the last of a kind counts), the key and a record with an address that represents it are given, there is an entry peer, host and table can be made, the entry peers are joined before the deadline, the table bootstraps and the relay peer, one of the entry peers, confirms the registration of the record (without its dates). What it does then is always the same in one order, the registration coming before the client takes lookups and envelopes. It never returns exactly if the entry peers were not joined before the deadline. It crashes exactly on a malformed entry address, a panic of the proof check, or a status without content. When it fails the host is left running exactly if the table could not be made. Close closes table and host whatever becomes of one of them and reports both errors; a second Close crashes.", "quantifier": "all options and all outcomes of the world", "why_tests_cant": "failures can come at any point of the start; the rounds of the loop are unbounded", "anchors": ["libs/go/libp2p_node/dht/dhtclient/dhtclient.go: New, bootstrapLoopUntilTimeout, registerAgentAddress, Close", "libs/go/libp2p_node/dht/dhtclient/options.go"]}
{"id": "C76", "title": "A client beside its relay peer", "statement": "A relay peer accepts the registration of every client that New returned. An exchange registers the agent exactly if the stream opens, the frame is written and the answer can be written, and the client learns of it exactly if the answer arrives as well; so it may be registered and not know. Whatever happens, the relay peer keeps running unless another node crashes it, and restarting it with its record file changes nothing. If no one else registers the agent it is registered in the end exactly if the client registered it, or it was from the start, and the relay peer has not lost its file since. The client writes its registration only in opening a stream whose first attempt failed. So after a relay peer has lost its file a client that reconnects and whose streams open at once stays unknown for ever, all its calls succeeding.", "quantifier": "all sequences of streams, losses, restarts and registrations of others", "why_tests_cant": "the failures need two programs, restarts and unbounded histories", "anchors": ["libs/go/libp2p_node/dht/dhtclient/dhtclient.go: Disconnected, newStreamLoopUntilTimeout, registerAgentAddress", "libs/go/libp2p_node/dht/dhtpeer/dhtpeer.go: handleAeaRegisterStream, initAgentRecordPersistentStorage, saveAgentRecordToPersistentStorage"]}
{"id": "C77", "title": "Taking delegate connections", "statement": "Delegate connections are taken one at a time in the order of arrival, each at most once, and New is told once that the service listens before any is taken. Each gets the signature of the node for its certificate first; an agent that was given a key connects exactly if that is a signature under its key for the certificate it sees. The service stops only when the node is closed: after that at most one more connection is served, and with the listener closed the loop ends with its next steps. But a client that does not do its TLS handshake keeps everyone else from being served for as long as it likes, and the loop from ending; one that goes away during the handshake is never closed by the node; and a failing Accept is retried at once for ever.", "quantifier": "all sequences of arrivals, failures, closing and steps of the loop; all keys, certificates and signature functions", "why_tests_cant": "one slow client among arbitrarily many; interleaving with Close", "anchors": ["libs/go/libp2p_node/dht/dhtpeer/dhtpeer.go: handleDelegateService, launchDelegateService, makeSessionKeySignature, Close", "libs/go/libp2p_node/dht/dhtpeer/utils.go: TLSListener.Accept", "libs/go/aealite/connections/tcpsocket.go: Connect"]}
{"id": "C78", "title": "The example seller", "statement": "The seller of aea_end2end reads each FIPA message under the camel-case name of its performative. Of all bytes it reads exactly the sequences of fields in which each performative is readable (the information of three of them as a map of texts), under the name of the last one. Whatever it received before, it puts an envelope only as the answer to the envelope just received: a propose for a cfp, a match accept for an accept, to the sender, in the same dialogue and with that message as its target. A buyer who opens with a new reference, accepts and ends gets both answers under that reference and the seller reports completion, whatever others send before and in between. An envelope crashes the seller exactly if it carries a cfp or an accept of somebody else with a reference that belongs to no dialogue with the sender and does not open one. Completion is reported exactly for an end that was taken into a dialogue or has such a stray reference. accept_w_inform, match_accept and match_accept_w_inform are never taken, although the rules list them.", "quantifier": "all sequences of envelopes received (fewer than 2^29), all nonces", "why_tests_cant": "needs all histories of interleaved buyers; the crash needs an unknown reference", "anchors": ["libs/go/aea_end2end/main.go: makeSellerDialogues, handleEnvelope, getEnvelopeAndProcess", "libs/go/aea_end2end/protocols/fipa.proto", "libs/go/aealite/protocols/dialogues.go: Update", "libs/go/aealite/protocols/message.go: GetPerformative"]}
{"id": "C79", "title": "Metrics of the peers of a process", "statement": "Making a peer with a monitoring port crashes the process exactly if one of the eleven published names is taken; so at most one peer with a port can ever be made in a process, even after the first was closed. In any history of peers made, monitors started and stopped and peers closed, the only crashes are a second peer with a port and stopping the monitor of a peer without one. Every metric that the node looks up is there from the making of the peer on and is shared neither between names nor between peers; the published names and the names that histograms derive from theirs never collide. The metrics are served exactly if after the first start the port could be listened on and the monitor was not stopped; once stopped or failed never again; closing the peer does not end the serving.", "quantifier": "all processes, all sequences of events and all outcomes of listening", "why_tests_cant": "the registry is global to the process, so tests of one peer never see the collision; needs all interleavings of the goroutine that serves with stop", "anchors": ["libs/go/libp2p_node/dht/monitoring/prometheus.go: NewPrometheusMonitoring, NewCounter, NewGauge, NewHistogram, Start, Stop", "libs/go/libp2p_node/dht/dhtpeer/dhtpeer.go: setupMonitoring, startMonitoring, addMonitoringMetrics, Close"]}
{"id": "C80", "title": "Starting and stopping the mailbox service", "statement": "From its launch on, beside any users of the mailbox, the only crashes are: the node is closed before the HTTP server was made; the address could not be listened on (the error is only logged, then Serve crashes); and a user leaves the critical section when, since the start replaced the lock, as many have left as entered. If nobody held the lock when it was replaced, at most one user is ever in the critical section and leaving never crashes; if somebody did, the process lives only while somebody stays inside. Requests are handled only after the tables were made and the address was listened on, so no registration is lost. The address is released exactly when both Serve and stop were called; requests are accepted exactly while Serve was called and stop was not.", "quantifier": "all interleavings of the goroutine that starts the service, its users and stop; all outcomes of listening", "why_tests_cant": "the races are between goroutines in a window of a few instructions; tests start the node and wait", "anchors": ["libs/go/libp2p_node/dht/dhtpeer/mailbox.go: start, stop, RouteEnvelope, IsAddrRegistered, GetAgentRecord", "libs/go/libp2p_node/dht/dhtpeer/dhtpeer.go: launchMailboxService, Close"]}
{"id": "C81", "title": "Locks of a peer node", "statement": "In every interleaving of any number of goroutines of a peer node that go through any sequences of its critical sections (tables, mailbox, metrics, the group of announcements), no unlock crashes the process, nobody shares a lock with its writer, and there is no deadlock: if somebody is not done, some goroutine can go on by itself, waits for the outside, or one that holds a lock waits for the outside. What is waited for under a lock is only: a mailbox client taking its answer, an announcement in the DHT, the disk, closing connections, the routing table. If the outside does its part, every order of steps ends with all done, after the same number of steps. If all but mailbox clients do, only goroutines wanting the lock of the mailbox are held up. But one mailbox client that does not take its answer keeps every envelope routed to the mailbox waiting, and announcing addresses for a new peer holds up connecting agents and the lookups that come after them.", "quantifier": "all numbers of goroutines, all sequences of critical sections, all interleavings", "why_tests_cant": "deadlock and progress are about all schedules; a writer that waits keeps new readers out only in rare timings", "anchors": ["libs/go/libp2p_node/dht/dhtpeer/dhtpeer.go: all uses of the locks, handleAeaNotifStream, IsAddressAnnouncementEnabled, RegisterAgentAddress, Close", "libs/go/libp2p_node/dht/dhtpeer/mailbox.go: apiGetEnvelope and all uses of the lock", "libs/go/libp2p_node/dht/monitoring/file.go"]}
{"id": "C82", "title": "Registrations that wait for announcements", "statement": "A registration waits exactly if the notification of a new peer is in progress, is back only at a moment when none is, and then sees announcements enabled exactly if the node started with entry peers or some notification enabled them. No wake-up is lost: once no notification is in progress, the remaining steps of the wait group can bring back every registration. The node never crashes in this and no request of the mailbox fails, unless a notification arrives when none is in progress while a registration that was made to wait is not back yet; in every such state it crashes the node at once or can at most three steps later (in a request to the mailbox only the request is lost).", "quantifier": "all numbers of notifications and registrations and all interleavings of the steps of sync.WaitGroup", "why_tests_cant": "the window is a few instructions between the end of one notification and the return of a waiting registration; needs a second peer to connect in it", "anchors": ["libs/go/libp2p_node/dht/dhtpeer/dhtpeer.go: handleAeaNotifStream, IsAddressAnnouncementEnabled, handleNewDelegationConnection, handleAeaRegisterStream", "libs/go/libp2p_node/dht/dhtpeer/mailbox.go: apiRegister"]}
{"id": "C83", "title": "The calls of an agent program", "statement": "Whatever calls an agent program makes in whatever order, the agent says it is connected exactly if a Start returned nil and Stop was not called since, whatever became of the connection. Stop returns exactly if the agent says so, its listener has not closed the connection and closing succeeds; in all other cases (after a failed Start, a second Stop, a lost connection) it ends the process. Get blocks for ever exactly if no Start has returned nil yet; otherwise it returns the oldest envelope not yet returned, waits if there is none, and returns nil if there is none and the agent was stopped. Between two Starts no envelope that is read is lost, doubled or overtaken, and the answers of the node go to the Puts that are answered one by one in order, so that after a Put that timed out every later one has the answer to an earlier one. A program that starts its agent at most once and does not initialise it after that has at most one listener and is crashed only by a call: InitFromEnv with a bad environment, Start before InitFromEnv or against a node without a key of the right kind, Put before there was a connection, and Stop as above; in general every crash has its exact condition, and after a Start that did not reach the node the next Put or Stop, or the listener of an earlier Start, crashes the process. But after a Stop the listener goes round for ever without effect as long as Start is not called; initialising the agent again lets it crash the process; starting it again lets it crash the process if it is first to read the answer to the registration and otherwise leaves two listeners on one connection and drops the envelopes not yet returned.", "quantifier": "all sequences of calls, frames of the node, losses, timeouts and steps of the listeners", "why_tests_cant": "needs all orders of calls together with all interleavings of the listeners; tests call Start and Stop once", "anchors": ["libs/go/aealite/agent.go: InitFromEnv, Start, Put, Get, Stop", "libs/go/aealite_agent_example/main.go", "libs/go/aealite/connections/p2pclient.go: InitFromEnv, Connect, Put, Get, Disconnect, listenForEnvelopes", "libs/go/aealite/connections/tcpsocket.go: Connect, Disconnect, Read"]}
{"id": "C84", "title": "Questions for an agent passed on between nodes", "statement": "A node that does not know the address it is asked for looks it up itself, and so on from node to node. However far a question has been passed on, as soon as a node is asked that has a record for the address with a proof, all calls return and the first node has that record and the peer of its key; it gets a record in no other way, and a node crashes exactly if it is the last to ask and the node it asks has a record whose check crashes. If questions are only passed on to nodes of lower rank and every call tries at most k providers, a question ends within a number of events given by k and the rank of the first node. But each call waits for the other without limit: if each of some nodes does not know the address and another of them is the first it asks, a question to one of them never ends and the number of waiting calls grows without bound. With settled tables and one order of providers for all nodes this is the case exactly if the first two do not know the address, even if the third is the agent's node and up; otherwise the question ends within four steps: with the record if the first or the second has it, with no result if there is only one provider and it does not have it (an error if that is the asking node itself), with an error if there is none.", "quantifier": "all nodes, tables, orders of providers, failures to open streams, and lengths of the chain of questions", "why_tests_cant": "needs several former nodes of an agent at once and does not end; tests use one node that knows and one that asks", "anchors": ["libs/go/libp2p_node/dht/dhtpeer/dhtpeer.go: lookupAddressDHT, HandleAeaAddressRequest", "libs/go/libp2p_node/dht/common/handlers.go: HandleAeaAddressStream", "libs/go/libp2p_node/acn/utils.go: PerformAddressLookup"]}
{"id": "C85", "title": "Simultaneous use of the tables of a peer node", "statement": "Go ends the process if a map is written while another goroutine writes, reads or ranges over it. In every interleaving of any number of goroutines of a peer node, from the moment New sets the first stream handler on, this happens exactly if New and another goroutine use the table of records or the table of relay clients at the same time and one of them is in the middle of a write. Once New has set up all handlers it never happens, and on a node that is no relay it never happens at all. But New loads the record file and announces the stored clients without the locks when relay clients can register already: whatever happened before, as long as New has such an access ahead and no handler is at work a registering client can end the process. The nodes that can end this way are exactly the relays with a stored record or with entry peers.", "quantifier": "all numbers of goroutines, all sequences of critical sections, all interleavings, all record files", "why_tests_cant": "the run-time system only notices when the accesses overlap; tests start a node before they start its clients", "anchors": ["libs/go/libp2p_node/dht/dhtpeer/dhtpeer.go: New, initAgentRecordPersistentStorage, handleAeaRegisterStream, handleAeaNotifStream, all uses of the maps", "libs/go/libp2p_node/dht/dhtpeer/mailbox.go: all uses of the maps"]}
{"id": "C86", "title": "An agent that changes how it is attached to a node", "statement": "An agent can register with one peer node through its relay, as delegate client and with the mailbox, in any order, and the node can be started again. Envelopes from agents of the node go to the mailbox while the agent is registered there and fewer than 1000 wait, else to its delegate connection if it lasts, else to the relay client it registered through, else the network is asked. Other nodes are told differently. If the agent was never a relay client they reach it in the same place, only that with a full mailbox and no connection they are refused. If its newest registration, the mailbox aside, is one through the relay, they are told that relay client for ever, whatever the agent does with the mailbox, also after starts if the record was stored. If it is one as delegate client they are told this node, and are refused once the agent is neither connected nor in the mailbox, though agents of this node reach it through the relay. After a start both get the last stored relay client, or nothing. Other nodes reach the agent where this node does exactly if it is in the mailbox or connected and was never relayed or its newest record is for this node, or it is neither and its newest record is that of the relay client or it is unknown. The record that goes with an envelope the agent sends is a proof for this node exactly if the agent is in the mailbox or its newest record is for this node.", "quantifier": "all histories of registrations, disconnections, mailbox traffic and restarts of one agent at one node, with streams and connections working", "why_tests_cant": "each way of attaching is tested on its own; the entries one way leaves behind only show when an agent changes to another", "anchors": ["libs/go/libp2p_node/dht/dhtpeer/dhtpeer.go: RouteEnvelope, HandleAeaEnvelope, HandleAeaAddressRequest, handleAeaRegisterStream, handleNewDelegationConnection, initAgentRecordPersistentStorage", "libs/go/libp2p_node/dht/dhtpeer/mailbox.go: Register, Unregister, RouteEnvelope"]}
{"id": "C87", "title": "Envelopes that could not be sent at once", "statement": "Callers of RouteEnvelope (the agent of the node, each pair of addresses of a delegate client, a mailbox client) route one envelope after the other. Each envelope is tried once by its call, in order; it goes to the slow queue exactly if its call asked the network and could not send it or was not told SUCCESS, and then the caller is told that all is well. The queue holds at most 100, is first in first out over all callers, and its loop tries each once more and no more, each after exactly those before it. So an envelope is handed over at most twice, and twice only if a peer got it but its SUCCESS did not arrive; if every peer confirms, at most once. A later envelope of the same caller overtakes an earlier one exactly if it is sent by its call while the earlier one waits in the queue; which happens. As long as the attempts of the loop return, a caller that finds the queue full can go on after at most three steps of the loop. If one attempt never returns, nothing in the queue is ever sent; a caller whose targets are not found gets through at most as many envelopes as the queue has room for, and once it has to wait none of its later envelopes is handed over, also not to agents of the same node.", "quantifier": "all numbers of callers, envelopes, interleavings, tables and outcomes of lookups and streams, on a node that is not being closed", "why_tests_cant": "needs lookups that fail and succeed in particular interleavings with a loop in the background; a lookup without end cannot be waited for", "anchors": ["libs/go/libp2p_node/dht/dhtpeer/dhtpeer.go: RouteEnvelope, slowEnvelopeSendLoop, _routeEnvelopeDHTLookup, _routeEnvelopeWithNewStream, handleNewDelegationConnection", "libs/go/libp2p_node/libp2p_node.go: main"]}
{"id": "C88", "title": "The numbers of clients a peer node reports", "statement": "The gauge of delegate clients is at any time the number of connections being served less the number of connections that were ever refused, so it is right exactly if none was: every connection whose first frame is not a registration with a valid proof, or that goes away without sending, lowers it by one for good, and it can reach any negative number without a client. A connection that hangs is counted for ever, also when its client is gone. The gauge is not the number of addresses in the table of delegate clients: a client whose announcement failed is in the table and not counted, one that reconnected can be counted and not in the table. The counter of delegate clients is the number of connections ever served, with reconnections counted again. The gauge of relay clients is never anything but zero; their counter is the number of registrations answered SUCCESS, repeated ones included.", "quantifier": "all interleavings of any number of delegate connections and relay registrations", "why_tests_cant": "the values are only wrong after particular histories of refused, failing and hanging connections, which no test of a working client produces", "anchors": ["libs/go/libp2p_node/dht/dhtpeer/dhtpeer.go: addMonitoringMetrics, handleNewDelegationConnection, handleAeaRegisterStream", "libs/go/libp2p_node/dht/monitoring/file.go: FileGauge, FileCounter"]}
{"id": "C89", "title": "What delegate clients leave behind", "statement": "Nothing ever ends the goroutine of a pair of recipient and sender while the node runs, and no queue of a pair, no entry for it and no record of an agent is ever removed. There is a goroutine exactly for the pairs that have an entry, each pair is that of an accepted envelope, every envelope handled has one, and with each goroutine one queue of 1000 places was made. While an address is registered on one connection only there is just one for each recipient. But one client that sends to k recipients, existing or not, makes k goroutines and k queues, which are all still there when it is gone.", "quantifier": "all interleavings of any number of delegate connections and pairs; all lists of recipients", "why_tests_cant": "growth without bound is invisible in any finite test; needs all histories", "anchors": ["libs/go/libp2p_node/dht/dhtpeer/dhtpeer.go: handleNewDelegationConnection"]}
{"id": "C90", "title": "The bytes other programs must write and read", "statement": "An envelope is written as its fields to, sender, protocol_id, message and uri under the keys 10, 18, 26, 34 and 42, in this order, each with a length in groups of seven bits and left out if empty; an agent record likewise as its eight texts under 10, 18, 26, 34, 42, 50, 58 and 66; an ACN message as one performative under 42, 50, 58, 66 or 74 with the fields of acn.proto in it (all the texts of a status, also empty ones); a dialogue message under 18 in a message. Negative integers are written as 64-bit numbers with the same bits. An envelope or record can be written exactly if all its texts are the UTF-8 form of Unicode scalar values. What is read from any bytes is determined exactly: they have to be a sequence of fields, with numbers of at most ten bytes and below 2^64 (also longer than needed), lengths within the input and field numbers from 1 to 2^29-1; values of four or eight bytes and groups, nested and closed by their own number, are skipped. Fields may come in any order, be repeated, missing or unknown: the result has the last value given for each field, or the empty one, and reading fails exactly if the bytes are not such a sequence or something given for a text is not text. An ACN message has the performative of the last of its fields; directly preceding ones with the same number are merged with it, and earlier ones are dropped but must be readable. A message without a performative is read as one.", "quantifier": "all envelopes, records, ACN messages and dialogue messages written below 2^63 bytes; all byte strings read", "why_tests_cant": "round trips within one program cannot show that programs in other languages read the same; needs all orders of fields and all texts", "anchors": ["libs/go/libp2p_node/aea/envelope.proto: Envelope", "libs/go/libp2p_node/protocols/acn/v1_0_0/acn.proto: AcnMessage, AgentRecord, StatusBody", "libs/go/aealite/protocols/base.proto: Message, DialogueMessage"]}
{"id": "C91", "title": "Which JSON texts are a dialogue label", "statement": "UnmarshalJSON of a dialogue label accepts exactly the JSON objects all of whose values are strings or null, and null itself, with white space anywhere between the tokens and nothing behind, and reads exactly this label from them: for each of the four names the last value given, null counting as empty and a missing name too; other names are ignored. In strings every character above the control characters but quote and backslash stands for itself, the eight short escapes and four-digit escapes for their characters, two halves of a pair for one character; a byte that belongs to no character and a half without its other half are read as U+FFFD. Every other text is refused.", "quantifier": "all byte strings", "why_tests_cant": "needs every text, including escapes, pairs, invalid bytes and repeated names, which no list of examples covers", "anchors": ["libs/go/aealite/protocols/dialogue_label.go: DialogueLabel.UnmarshalJSON"]}
{"id": "C92", "title": "Which texts are a signature in base64", "statement": "A signature of a fetchai or cosmos agent is base64 text. The node reads exactly these texts and these bytes from them: line feeds and carriage returns anywhere are left out; what remains are characters of the standard alphabet and at most two '=' that fill them up to a multiple of four and stand at the end; the bits of the characters in order are the bits of the bytes, followed by two unused bits for each '=', which can be any. SignFetchAI writes the one text without newlines whose unused bits are zero, and it is read back as the bytes written, so a record signed with it is accepted under the length condition of C74 without assuming anything about base64. The text of a signature is not unique: for each choice of the unused bits there is exactly one text without newlines, the check of a record does not depend on which text of the same bytes it carries, and every accepted record of these ledgers is also accepted with another signature text.", "quantifier": "all texts, all byte strings, all records, all hash and curve functions", "why_tests_cant": "needs all texts: padding, foreign characters, newlines in any place and all values of the unused bits", "anchors": ["libs/go/libp2p_node/utils/utils.go: ParseFetchAISignature, VerifyFetchAISignatureBTC, VerifyFetchAISignatureLibp2p, SignFetchAI", "libs/go/aealite/wallet/utils.go: ParseFetchAISignature, SignFetchAI"]}
{"id": "C93", "title": "Which bytes are a signature", "statement": "The bytes of a fetchai or cosmos signature are read as a pair of numbers in exactly two cases: there are fewer than 250 of them and their halves (the second one byte longer if their number is odd) are the numbers; or there are at least 512, and they begin with a first number of (half the length modulo 256) bytes, the bytes 2 and the length of the second number, and the second number, where both numbers and six more fill the length plus six modulo 256; what follows is not looked at. Both numbers must be positive and below the order of the curve; for the strict check neither may begin with a needless zero byte or a byte above 127. So a record of these ledgers is accepted exactly if its texts, read by these rules and those of C92, are the key, the address and a pair under which the key verifies the peer key. Up to 92 zero bytes in front of both numbers change nothing, and every accepted record can be turned into an accepted one whose signature carries any 510 bytes.", "quantifier": "all byte strings, all records, all hash and curve functions", "why_tests_cant": "needs all lengths: the length bytes wrap around at 256, which no test of usual signatures shows", "anchors": ["libs/go/libp2p_node/utils/utils.go: ConvertStrEncodedSignatureToDER, ParseFetchAISignature, VerifyFetchAISignatureBTC", "libs/go/aealite/wallet/utils.go: ConvertStrEncodedSignatureToDER", "libs/go/libp2p_node/dht/dhtnode/utils.go: IsValidProofOfRepresentation"]}
{"id": "C94", "title": "Two agents that talk to each other", "statement": "Let agent A be given, from B, only messages that B sent to A, in the order sent, with any of them lost, while both make any calls (B replies only in stored dialogues, never reuses a reference and never draws an empty one). Then for every dialogue of A with B in which A has received something, B has exactly one dialogue with A for the same starter reference, started by the same agent, and the messages A holds as received in its dialogue are, in the same order, some of those B holds as sent in that one: no message ends up in another dialogue, is invented or is out of order. It is false that without losses A holds a prefix of what B sent: a message can be rejected, because A has answered in between, and a later one be accepted. But if nothing is lost and nothing rejected, then for every dialogue in which B has sent something A has exactly one with the same starter reference and starter, and it holds as received exactly what B holds as sent, and, if the same is true in the other direction, as sent exactly what B holds as received. If both draw references the other does not use, the two ends of a dialogue agree on its whole reference once both have it complete, even if messages are also repeated and reordered; if both start a dialogue with each other under the same reference this is false: a message in the one completes the reference of the other.", "quantifier": "all configurations of both agents, all interleavings of calls of both, all patterns of loss", "why_tests_cant": "needs all pairs of executions of two agents and all losses", "anchors": ["libs/go/aealite/protocols/dialogues.go: Create, CreateWithMessage, Update, GetDialogue, completeDialogueReference", "libs/go/aealite/protocols/dialogue.go: Reply, update"]}
{"id": "C95", "title": "An agent's address is the text of BIP 173 or EIP-55 with its key's digest, and two bech32 addresses differ in five characters", "statement": "On the fetchai and cosmos ledgers the address computed from a hexadecimal public key is exactly the text BIP 173 defines: the prefix and \"1\", then characters of the bech32 alphabet that carry the 160 bits of the digest in groups of five, then six characters with which the values of prefix, data and check, read as a polynomial over the field with 32 elements, are one more than a multiple of the generator of the code. Hence two different addresses of one ledger have the same length and differ in at least five characters: with up to four wrong characters an address is never the address of another key, and no record is accepted for it. Five is the best bound. On the ethereum ledger the address is exactly the text of EIP-55 with the last twenty bytes of the digest of the key, the first two characters of which are not looked at.", "quantifier": "all keys, all digest functions with digests of the right lengths, all three ledgers", "why_tests_cant": "needs all pairs among 2^160 digests and a characterisation in the terms of the standard", "anchors": ["libs/go/libp2p_node/utils/utils.go: cosmosAddressFromPublicKeyWithPrefix, FetchAIAddressFromPublicKey, CosmosAddressFromPublicKey, EthereumAddressFromPublicKey, encodeChecksumEIP55", "libs/go/libp2p_node/dht/dhtnode/utils.go: IsValidProofOfRepresentation"]}
{"id": "C96", "title": "Which dialogue a message reaches and when none", "statement": "A message names a stored dialogue with its sender if it carries the dialogue's starter reference and, as responder reference, none, the one of the dialogue, or, in a dialogue this agent started whose responder reference is still open, any. In each of these ways the message is accepted into the dialogue under the same condition on id and target as in C02 (without responder reference only if its id is neither 0 nor 1; with its id 1 it is an opening). So a partner may send further messages before it has learnt the responder reference, and the responder itself need not give one. Update answers with neither an error nor a dialogue if and only if the message is from another agent to this one and either has a responder reference alone or is no opening and names no stored dialogue; nothing has changed then. A dialogue without messages, as a failed Create leaves it, accepts exactly an opening (id 1, target 0, allowed initial performative) of the partner that names it, although this agent is its starter, and after that this agent can never say anything in it. A message that is not from another agent to this one, that has no reference, or that has only the starter reference and id 0, is refused with an error and changes nothing.", "quantifier": "all configurations, all histories of calls, all messages; acceptance for dialogues with at least one message and, in a dialogue started by the partner, if this agent has none with the partner under the same starter reference", "why_tests_cant": "needs all stores that calls can lead to and all messages", "anchors": ["libs/go/aealite/protocols/dialogues.go: Update, GetDialogue, completeDialogueReference, getLatestLabel", "libs/go/aealite/protocols/dialogue.go: isBelongingToDialogue, update"]}
{"id": "C97", "title": "What CreateWithMessage and Create do with any argument", "statement": "CreateWithMessage refuses, with an error and without changing anything, a message that already has a sender or a recipient, one without starter reference or with a responder reference, and one whose starter reference this agent already uses with the counterparty (in a stored dialogue, or in one whose reference was completed and is still recorded). In every other case a new dialogue is stored under the reference of the message. If the message has id 1, target 0 and an allowed initial performative, the dialogue is returned and holds exactly the message, addressed from the agent to the counterparty; otherwise neither an error nor a dialogue is returned and an empty dialogue stays in the store, listed as active. The call writes sender and recipient into the caller's message, so the same message is refused by every later call of CreateWithMessage, whatever the first one answered. A dialogue with the agent's own address can be created but never holds more than its opening. Create fails if and only if no random reference could be drawn or the one drawn is in use, and then changes nothing.", "quantifier": "all configurations, all stores that calls can lead to, all messages, counterparties and performatives", "why_tests_cant": "needs all reachable stores and all messages", "anchors": ["libs/go/aealite/protocols/dialogues.go: Create, CreateWithMessage, createDialogue, createSelfInitiated, create", "libs/go/aealite/protocols/message.go: SetSender, SetTo"]}
