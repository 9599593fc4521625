# Formal model of the Go part of agents-aea: design

Source: `/repo` (read as text, never built or changed). The Go code has two
programs: `libs/go/aealite` (the agent library) and `libs/go/libp2p_node` (the
network node; `packages/fetchai/connections/p2p_libp2p/libp2p_node` is a byte
identical copy). File names in this document are relative to `/repo/libs/go`.

## Method

* One executable Gallina model per Go unit, written function by function; each
  definition cites the file and lines it models. Stateful code is a transition
  function on an explicit state; concurrent code is a labelled step relation or
  step function over explicit interleavings.
* Go results are values of `res A = Ok a | Err e | Panic p`: an `error` return
  is `Err`, a run-time panic (nil dereference, index out of range) is `Panic`.
* Calls that leave the code under study (cryptography, randomness, the libp2p
  DHT, clocks) are arguments of the model: Section variables, per-call oracle
  arguments or script arguments. Theorems quantify over all of them.
* Every theme has: `*Model.v` (definitions), `*Spec.v` where the property needs
  vocabulary of its own (small, independent of the model's helpers), `*Proofs.v`
  and `*Props.v` (theorem statements, one-line proofs, a non-vacuity `Example`
  next to each, `Print Assumptions`).
* Where the expectation of a user turns out to be false for the code, the
  property in `properties.jsonl` states the exact behaviour, the `_refuted`
  theorem exhibits the counterexample, and the characterisation is proved.

## Themes, properties and plan

| Properties | Theme | What is modelled | How it is proved |
|---|---|---|---|
| C01, C02, C03, C05, C06, C09, C10, C18 | dialogue | `aealite/protocols/dialogue.go` complete; messages are records, slices are lists, `int` ids are `Z` with 64-bit negation in `abs` | invariant on a single dialogue by induction over updates; two-dialogue composition for C03; witnesses by computation |
| C04, C07, C08, C11-C17 | dialogue store | `dialogues.go`, `storage.go`: heap of dialogues, two indexes, completion map, terminal set; nonces are inputs of the calls | invariant by induction over call lists; frame lemmas per call |
| C19, C20 | labels | `dialogue_label.go` with `strings.Join/Split`, JSON text with all member orders and a scanner for flat JSON objects | structural induction on strings; `LabelRoundProps.v` needs no condition on the label: with the grammar of C91, a part with a quote or backslash would have to be read from a part with more ASCII bytes |
| C21, C22, C23 | wire format | proto3 wire format of `base.proto`, `acn.proto`, `envelope.proto`; UTF-8 check; `message.go` | round-trip lemmas per field, then per message |
| C24, C25, C26 | framing | `ReadBytes/WriteBytes`, `ReadBytesConn/WriteBytesConn`, `TCPSocketChannel`; a connection is the pending byte string plus an oracle deciding how many bytes each read returns | induction over the fragmentation |
| C27, C28 | record file | save and reload at byte level; crash = arbitrary byte prefix | induction over the record list |
| C29, C30 | proof of representation | `IsValidProofOfRepresentation` and the address derivation and verification dispatch; hash, curve and signature primitives are variables | case analysis, iff-characterisation |
| C31, C32 | ACN handling | `acn/utils.go`, `aea/utils.go`, pipe as frame queue + output log | case analysis over decoded messages; `CrashProps.v` states the crashing frames in bytes with the grammar of C90 and the framing of C25 |
| C33 | acknowledgements | status queue as FIFO state machine | induction over histories |
| C34-C36 | mailbox | HTTP handlers as steps on the four maps | refinement to an abstract FIFO, invariant by induction |
| C37-C39 | delegate service | connection handlers and per-pair routing goroutines as interleaved steps | invariants by induction over schedules |
| C40-C46 | peer routing | `RouteEnvelope`, `HandleAeaEnvelope`, lookups, registration with external outcomes as oracle arguments | case analysis, invariants |
| C47, C48 | client node | `RouteEnvelope`, retry loops with fuel | induction on fuel |
| C49, C50 | agent connection | `registerWithRetry`, delays on 64-bit integers | induction, arithmetic |
| C51, C52 | wallet text forms | big-endian integer bytes, DER layout, hex, EIP-55 | induction on byte lists |
| C53 | metrics | `FileHistogram` | induction over observations |
| C54 | configuration | `AeaApi.init` URI and port parsing | induction on strings |
| C55 | sets | `helpers/base.go` | refinement to mathematical sets |
| C56 | opening a dialogue | same model as C04-C17 | exact characterisation of the accepted opening messages |
| C57 | unknown fields | same model as C21-C23 | fields are appended to any accepted input |
| C58 | addresses | bech32 and EIP-55 texts | shape of the two texts |
| C59 | closing the status queue | same model as C33 | enumeration of the steps after a close |
| C60 | delegate SUCCESS | same model as C37-C39 | witness run and general lower bound |
| C61, C62 | receive loop, pinning | `p2pclient.go` listener and `tcpsocket.go` Connect; certificates and keys are variables | invariants over schedules, case analysis |
| C63 | the node's agent pipe | `aea/api.go` Connect, listener, Put, Stop and the main loop as steps | invariants over schedules |
| C64, C65 | file metrics, timers | `monitoring/file.go`, `service.go`; floats are IEEE binary64 (`SpecFloat`) | invariants over call lists |
| C66, C67, C68 | configuration, start-up, joining | `aea/api.go`, `libp2p_node.go`, `wallet.go`, `p2pclient.go` InitFromEnv, `BootstrapConnect`; the environment is a function | iff-characterisations |
| C69 | stopping a peer | `dhtpeer.go` Close beside delegate handlers, pair goroutines, route calls and the slow queue's loop, any interleaving (`ShutdownModel.v`) | invariant over all interleavings; exact crash condition; conservation of queued envelopes; refutations |
| C70 | an envelope end to end | no new model: framing, wire format, delegate service, routing, proof check and agent composed (`EndProps.v`) | composition of the parts' theorems |
| C71 | starting a peer | `dhtpeer.New` and its options as steps beside registrations of relay clients (`StartModel.v`) | invariants over all interleavings; exact conditions for success, crash and a host left open; refutations |
| C72 | finding and reaching an agent | no new model: delegate tables, lookup answers, lookups and routing composed (`FindProps.v`) | invariant (connected implies recorded), induction over chains of nodes asking on; refutations |
| C73 | key texts | conversions between texts, keys, peer ids and private keys (`KeyModel.v`); points of the curve abstract | exact conditions both ways; refutations |
| C74 | signing and checking | `SignFetchAI` and the two checks (`KeyModel.v`) | round trip with exact length condition; exact range on which the checks agree; refutations |
| C75 | starting a client node | `dhtclient.New`, its options, `Close` (`LifeModel.v`) | exact conditions for success, hanging, crashing, leaking a host |
| C76 | a client beside its relay peer | exchanges, losses, restarts and registrations of others (`LifeModel.v`); handler steps at once | invariant (tables = what the file gives) over all event sequences; refutation |
| C77 | taking delegate connections | the accept loop, the listener that sends the signature, beside Close (`AcceptModel.v`); the TLS handshake happens in the first write | invariants over all event sequences; composition with C25, C62, C73, C74 |
| C78 | the example seller | FIPA messages, dialogue rules and `handleEnvelope` of `aea_end2end/main.go` (`SellerModel.v`) over the dialogue model; what `Put` answers is only logged there and is not modelled | invariant over all runs (the seller never numbers ahead of its partner); composition with C07-C18, C56; `FipaProps.v`: grammar of the bytes read as a FIPA message, sound and complete |
| C79 | metrics of the peers of a process | `prometheus.go` and the part of `dhtpeer.go` that makes and starts the metrics (`MetricsModel.v`); the registry and the default mux are shared by the whole process; times and values of Prometheus metrics are left out (values of file metrics: `MonitorModel.v`) |
| C80 | starting and stopping the mailbox service | the goroutine of `mailbox.go: start`, `stop` and the lock beside its users (`ServeModel.v`); what becomes of a user waiting for the lock when it is replaced is left out |
| C81 | locks of a peer node | the critical sections of `dhtpeer.go`, `mailbox.go`, `file.go` as sequences of lock operations; goroutines are arbitrary sequences of sections (`LockModel.v`); writers keep new readers out; the wait group is simplified (exact in C82) |
| C82 | registrations that wait for announcements | the wait group of `dhtpeer.go:152` at the steps of Go's `sync.WaitGroup` (word, semaphore), `handleAeaNotifStream` and `IsAddressAnnouncementEnabled` around it (`WaitModel.v`) |
| C83 | calls of an agent program | `agent.go: InitFromEnv, Start, Put, Get, Stop` in any order beside the listeners left behind (`ApiModel.v`); a frame is read in one step, queues are unbounded, `Disconnect` is one step | invariants over all histories; exact conditions for `Stop` and `Get` |
| C84 | questions passed on between nodes | `lookupAddressDHT` and `HandleAeaAddressRequest` of many nodes calling each other (`AskModel.v`, from the functions of `RouteModel.v`); the providers the DHT yields are events; requests and answers arrive whole; for the loop: settled tables, a node cannot dial itself | invariant (the chain of waiting calls), weighted measure for nodes of falling rank, exact outcome if all nodes see one order |
| C85 | simultaneous use of maps | all accesses of a peer node to its maps and the locks around them, `New` from the first handler to the end, the mark the run-time system of Go keeps on a map being written (`RaceModel.v`); other variables are not looked at | invariant over any number of goroutines (lock discipline, marks), exact crash condition, exact set of nodes that can crash |
| C86 | an agent that changes how it is attached to a node | one agent's entries in the tables of relay clients, records, delegate clients, the mailbox and the record file, through any history of registrations and starts (`MoveModel.v`); envelopes and questions by the functions of `RouteModel.v` | invariants over histories, exact condition for local and remote delivery to agree |
| C87 | envelopes that could not be sent at once | any number of callers of `RouteEnvelope`, the slow queue and its loop (`SlowModel.v`); one call is `route`, one turn of the loop `slow_send` of `RouteModel.v`; no closing | invariant over all interleavings; exact order, number of deliveries, waiting and blocking |
| C88 | the numbers of clients a peer node reports | the goroutines of `DelegateModel.v` with the four client metrics, relay registrations (`StatsModel.v`); numbers are integers | invariant over all interleavings; exact values of gauges and counters |
| C89 | what delegate clients leave behind | `DelegateModel.v` | monotonicity over all runs, exact set of goroutines and queues, growth by any list of recipients |
| C90 | the bytes other programs must write and read | the wire format once more as inductive relations on bytes, without the functions of the model; UTF-8 as the image of scalar values | every encoder is shown to produce the form; splitting into fields is shown sound and complete for the relation on all bytes; the decoders are folds with a closed form over any list of fields |
| C91 | which JSON texts are a dialogue label | the scanner of `LabelModel.v` against a grammar of JSON texts written as inductive relations | soundness and completeness of each parser; the units of a string form a prefix code |
| C92 | which texts are a signature in base64 | `base64.StdEncoding` as the node and the agent call it (`Base64Model.v`); newlines are removed first | grammar over bits, sound and complete; the written text is the unique one with zero unused bits; discharges the base64 assumption of C74 |
| C93 | which bytes are a signature | no new model: `str_to_der`, `parse_sig`, `is_valid_por` (`SigProps.v`) | exact grammar of the bytes read as a pair, for all lengths; closed form of acceptance with C29 and C92 |
| C94 | two agents that talk to each other | no new model: two executions of `StoreModel.v` joined by a lossy channel in order (`AgreeProps.v`) | the starter reference and the sign of the id name one dialogue; what was sent in it is a filter of all that was sent; a theorem refutes prefixes; `AgreeRefProps.v`: a label is completed only from a message the peer sent in its dialogue; `AgreeAllProps.v`: if all is accepted, what was received in a dialogue is a filter of all that was given |
| C95 | addresses in the terms of BIP 173 and EIP-55, and how far apart they are | no new model: `CryptoModel.v` against polynomials over the field with 32 elements (`BechProps.v`) | the shift register computes the remainder modulo the generator; no nonzero polynomial with at most four terms and degree below 38 is a multiple of it, by elimination among the powers of x, computed once |
| C96 | which dialogue a message reaches | no new model: `api_update`, `get_dialogue`, `complete_dialogue_reference` of `StoreModel.v` (`NamedProps.v`) | the index invariant of C11 with C02 and C14; exact condition for an answer without dialogue |
| C97 | Create and CreateWithMessage | no new model: `api_create`, `api_create_with` of `StoreModel.v` (`CreateProps.v`), and the message of the caller after `CreateWithMessage` (`written`) | exhaustive case distinction over reachable stores; extends C15 to all arguments |

Nothing in the list is inexpressible; cryptographic strength, real time and
the behaviour of libp2p itself are outside (they are oracle arguments).

## Files

`rocq/theories/`, in build order: `GoBase`, `Bytes`, `Utf8` (conventions, bytes, text);
then per theme `XModel`, helper files (`XSpec`, `XDemo`, `XLemmas`, `XProofs`, `XInv`) and
`XProps`, which holds the theorems named `CNN_...`. `PeerProps` holds C42-C45,
`RegistryProps` C46, `StoreProps` C04, C07, C08, C11-C17 and C56. `MANIFEST.json`
maps properties to theorem names. `seeded/LOG.jsonl` lists the wrong programs tried
against the theorems.

How to read the log: a wrong program is tried by rebuilding and giving up each proof that
no longer goes through. `failed` lists every property theorem that then rests on a proof
given up, its own or that of a lemma; `failed_directly` lists those whose own proof broke;
`lemmas_failed` the lemmas; `timed_out` the proofs stopped by the time limit, which may be
due to load. A proof that breaks does not show that its theorem is false of the wrong
program: only the scripts are known to fail. Where `failed_directly` is empty (about two in
five entries) the log shows no more than that a lemma under the theorem noticed the edit,
which for a shared lemma, as the invariants of `StoreProofs.v` and `StoreInv.v`, marks almost
every theorem of the theme. In somewhat less than half of these an example, that is a
computed run, failed as well (`examples_failed`). An entry with `failed` empty is a survivor:
it was equivalent, or led to a theorem named in `tightened`, or is explained in `note`.

## What is modelled and what is not

Modelled (paths under `/repo/libs/go`):

* `aealite/helpers/base.go`: all.
* `aealite/protocols/dialogue.go`, `dialogues.go`, `storage.go`, `dialogue_label.go`,
  `message.go`: all except getters. Message bodies are opaque byte strings; the content
  message of `GetDialogueMessageWrappedAndSetContentFromEnvelope` is an oracle.
* `aealite/connections/p2pclient.go`: all except `Queue`, `Connected`, `Initialised` and
  log lines. `tcpsocket.go`: all. `acn/acn.go`: as the node's `acn/utils.go`, with the
  differences stated at the definitions.
* `aealite/wallet/wallet.go`, `wallet/utils.go`: all (curve operations abstract).
* `aealite/agent.go`: all but `Address`; the calls of `aealite_agent_example/main.go` are one of the histories of C83.
* `libp2p_node/acn/utils.go`, `aea/utils.go`, `aea/api.go`, `aea/pipe.go`: all except log
  lines and getters.
* `libp2p_node/utils/utils.go`: framing (614-745), keys, addresses and signatures (235-608),
  `BootstrapConnect`, `GetPeersAddrInfo`. Not modelled: logger set-up, `ComputeCID` (an
  oracle: it succeeds or fails).
* `libp2p_node/dht/dhtnode/utils.go`: all. `dht/common/handlers.go`: all.
* `libp2p_node/dht/dhtpeer/dhtpeer.go`: record file (430-515), delegate service
  (825-1010), routing and lookups (1034-1613), notifications, registration and announcing
  (1615-1870), `New` (187-428) with `options.go`, `Close` beside the services (616-668), the accept
  loop and the signature of the certificate (737-815, `utils.go`). `mailbox.go`: all.
* `libp2p_node/dht/dhtclient/dhtclient.go`: `New` and `Close` with `options.go`, retry
  loops, registration, routing and handlers (95-133, 163-417, 429-722).
* `libp2p_node/dht/monitoring/file.go`, `prometheus.go`, `service.go`: all.
* `aea_end2end/main.go`, `protocols/fipa.proto`: the dialogues and the envelope loop.
* `libp2p_node/libp2p_node.go`: the choice of node and the main loop.

Library behaviour written down as definitions (not verified against the library text,
which is not in `/repo`): protobuf wire format v1.25.0, `encoding/json` on flat objects,
`encoding/hex`, `encoding/base64`, promauto's registration, `http.Server`, `sync.WaitGroup`, `strconv.ParseUint`, `strings.Split/Join`, `unicode/utf8`, bech32,
`btcec.ParseSignature`, `bufio.Reader`, `io.ReadFull`, channels and mutexes.

Left open (theorems hold for every behaviour): hashes, curve operations, base64 (every theorem but those of C92),
randomness, clocks, the DHT, TLS, how the transport cuts the stream, the scheduler.

Not modelled at all: mocks, generated getters, logging, memory exhaustion, data races on unsynchronised
variables other than the maps of a peer node, which are in C85 (in the other models a step is one critical section or one channel
operation, executed atomically).

## Behaviour found that a user would not expect

Each is the subject of a theorem.

* The initiator of a strictly alternating conversation cannot go past the fourth message
  (C03). A rejected message can rename a dialogue (C14) and a rejected opening makes its
  reference unusable (C16).
* Malformed Ethereum fields in a record crash the node (C30); a status frame without body
  crashes the receiver, and so do six bytes sent to the delegate port (C31); an empty status reply crashes the sender's node (C40-C43).
* A status that arrives late is taken for the answer to a later message (C33).
* A mailbox client can send in the name of another one (C36); ending one session of an agent
  removes the mailbox of its other sessions (C35).
* The cleanup of an old delegate connection removes the new one's entries (C39).
* The ongoing-routes gauge drifts (C41).
* The client node's retry loops never return after the deadline (C48).
* A jitter that is not positive crashes the agent; a delay above 2^62 ns overflows (C50).
* DER to text drops leading zero bytes, so some signatures do not survive (C51).
* `Put` after a pipe failure crashes the node (C63); stopping the file metrics crashes
  unless they were started and not yet stopped (C64).
* The agent's listen loop spins after `Disconnect` (C61); the TLS pin is compared with
  the last certificate of the chain, not the leaf (C62).
* A malformed public port silently turns a peer into a client; a registration delay is
  cut to whole seconds; all entry peers must be reachable (C66, C68).
* One call of `Close` on a peer can crash it, and loses the slow queue; a delegate
  connection replaced by a reconnection survives it (C69).
* An envelope acknowledged by the sender's node can be too large for the next node, because
  the record attached counts against the same limit (C70).
* `New` leaves its host running when the record file cannot be read; a relay client that
  registers while the node starts is answered SUCCESS but not saved, and an older record in
  the file takes the place of its record; the dates of the own record are dropped; the own
  address is announced before envelopes are taken (C71).
* After an overlapping reconnect an agent is served but its node answers lookups for it with
  UNKNOWN_AGENT_ADDRESS; after a failed announcement it is the other way round (C72).
* The agent takes a node key with garbage behind it; a record with the node's key in
  capitals names the right peer but is never accepted by it (C73). About one signature in
  two is reported malformed by `VerifyFetchAISignatureLibp2p` (C74).
* A client is announced before it can take envelopes, and leaves its host running if the
  table fails (C75). A client that reconnects does not register again, so a relay peer
  that lost its record file never learns of it while streams open at once (C76).
* A client that connects to the delegate port and does not do its TLS handshake blocks the
  delegate service (C77).
* `Dialogues.Update` returns no dialogue and no error for an unknown reference, so one
  envelope of a stranger crashes the example seller; its rules never match performatives of
  more than one word (C78).
* A second peer with a monitoring port crashes the process, even after the first was closed;
  closing a peer leaves its metrics served; a monitor that failed to listen or was stopped
  never serves again (C79).
* A mailbox address that is in use crashes the node; so does closing it right after its
  start. The start replaces the lock of the mailbox while envelopes may already be routed
  to it, which lets two into the tables and then crashes the node (C80).
* A mailbox client that does not take its answer holds up every envelope routed to the
  mailbox; announcing addresses for a new peer holds up connecting agents and later lookups (C81).
* A peer that connects just when the announcements for another have ended crashes the node if
  a registration waited for them: the wait group is used again too early (C82).
* `Stop` after a failed `Start` ends the process; `Get` before the first successful `Start` blocks for
  ever; a stopped agent keeps a listener that goes round for ever, and crashes or doubles it when
  initialised or started again (C83). After a `Put` that timed out every later one is told the
  answer to an earlier one (C83).
* A node that does not know an agent asks on without a time limit. Two former nodes of an agent
  that come before its present node in the order of providers ask each other for ever: every
  lookup of the agent, and every envelope behind it, hangs and leaves more and more calls (C84).
* A relay sets up its handler for registrations before it has loaded and announced its stored clients, which it does
  without the locks: a client that registers in that time can end the process (C85).
* The entry of a relay client is never removed and is stored in the record file, so an agent that leaves the
  relay and registers with the mailbox of the node gets the envelopes of this node's agents only: other nodes
  are told the old client for ever. A delegate client that goes leaves its record behind: if it was a relay client
  before, other nodes are refused while agents of this node still reach it (C86).
* An envelope whose target is not found at once is overtaken by later ones of the same sender, and comes twice
  if only the answer to it was lost. One lookup of the slow queue's loop that does not return stops every
  envelope in the queue, and after a hundred more to addresses not found it stops the node's own agent
  altogether, also for envelopes to agents of the same node (C87).
* The gauge of delegate clients is lowered for every refused connection although it was never raised for it: anybody who connects and sends nothing lowers it by one for
  good. The gauge of relay clients is never changed at all (C88).
* A delegate client makes one goroutine and one queue of 1000 places for every recipient it names; they stay until the node is closed (C89).
* The signature text of a record is not unique: newlines and the unused bits of base64 are not looked at, so anybody can turn an accepted record into a different accepted one (C92).
* The lengths in a signature are reduced to eight bits, so signatures of 512 bytes and more are accepted too and can carry any 510 bytes besides the proof (C93).
* A message given to `CreateWithMessage` is refused by every later call, even if the first
  call refused it (C97); a message that names no dialogue is passed over without error (C96).
* The empty dialogue a failed `Create` leaves behind can be opened by the partner; the agent can
  then never speak in it (C96).

## Trusted base

* Coq 8.16.1 kernel; the build uses no flag that disables a check; no plugin.
* `Print Assumptions` follows each property theorem. For every theorem it prints
  `Closed under the global context`: no axiom is used, neither own nor of a library.
  (Loading std++ brings the three parameters of `Coq.ssr.ssrunder.Under_rel` into the
  environment; no theorem depends on them.)
* The correspondence between the Go text and the model is by reading; each
  definition carries its citation and its simplifications.
