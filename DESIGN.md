# Formal model of ethlambda — design

The code under study is `/repo` (Rust, lambdaclass/ethlambda at the pinned
commit). It is read as text only. The model and proofs are in
`rocq/theories` (logical name `Verif`), Coq 8.16.1, using the Coq standard
library and std++.

## 1. Conventions of the model

* **Integers.** Slots, indices, lengths and times are `N` (unbounded). Where the
  property is about 64-bit/32-bit overflow (C09, C44, C45, C89) the wrap or the checked
  operation is written out explicitly. Elsewhere u64 overflow is outside the model
  (all such sums are of quantities below 2^40 in practice).
* **Hashes.** `H256` is `N`, zero hash is `0`; numeric order is the big-endian
  lexicographic order of the 32 bytes. Hash-tree-root functions are *parameters*
  (Section variables or fields of the record `Env`, hence universally quantified in
  each theorem). No theorem assumes collision freedom unless it says so as an
  explicit hypothesis (`good_hash`: injective and never zero; `acyclic_hash`: no
  block is its own ancestor). An instance of each hypothesis is constructed
  (`InjHash.v`, `NodeExamples.v`), so the hypotheses are satisfiable.
* **Panics.** Every `expect`/`unwrap`/index in modelled code is an explicit error
  constructor (`Panic`), distinct from returned `Error`s.
* **Hash maps.** Rust `HashMap`/`HashSet` become std++ `gmap`/`gset`, or
  association lists where iteration order could matter; in that case a theorem
  states independence of the order or quantifies over the order.
* **Loops.** Structural recursion, folds, or explicit fuel returning a distinct
  out-of-fuel value that theorems exclude.
* **Cryptography, SSZ, RocksDB, libp2p, threads.** External. Signature verification
  is an oracle parameter; the database is a map with atomic batches (in-order replay
  of the operations of a batch) and crash points between batches.

## 2. Files

| part | model | specification vocabulary | proofs, examples | theorems |
|------|-------|--------------------------|------------------|----------|
| state transition | `Types` `STF` | `STFSpec` | `Lib` `JustProofs` `STF*` | `PropsSTF` |
| fork choice | `ForkChoice` | `FCSpec` | `FCProofs` `FCMore` | `PropsFC` |
| wire encodings | `Wire` | `WireSpec` | `WireProofs` `WireMore` | `PropsWire` |
| pools, keys, bitlists | `Pools` `Keys` | `PoolSpec` | `PoolProofs` `KeysProofs` `PoolMore` | `PropsPool` |
| storage | `Storage` | `StorageSpec` | `StorageProofs` `StorageMore` `InjHash` `StorageExamples` | `PropsStorage` |
| node (store logic) | `Node` | `NodeSpec` | `NodeProofs` `NodeThms*` `NodeExamples` | `PropsNode` |
| proposing | `Builder` | `BuilderSpec` | `BuilderGreedy` … `BuilderExamples` | `PropsBuilder` |
| aggregation | `Agg` | `AggSpec` | `AggProofs` `AggNode` `AggSound` `AggExamples` | `PropsAgg` |
| actor | `Actor` | `ActorSpec` | `ActorEasy` … `ActorAll` `ActorExamples` | `PropsActor` |
| fetching, range sync | `Sync` | `SyncSpec` | `SyncProofs` `SyncRange` `SyncRoot` `SyncExamples` | `PropsSync` |
| duties, fetches of the actor | `Actor` | `DutySpec` | `DutyProofs` `DutyAsk` `ActorFetch` `DutyExamples` | `PropsDuty` |
| block requests, status, HTTP lookups | `Serve` | `ServeSpec` | `ServeProofs` `ServeThms` `ServeExamples` | `PropsServe` |
| gossip topics, publishing, receiving | `Gossip` | `WireSpec` | `GossipProofs` | `PropsGossip` |
| accountable safety, own votes | `STF` `Node` | `STFSpec` `Safety` | `SafetyProofs` `SafetyExamples` `NodeVotes` | `PropsSafety` `PropsVotes` |
| liveness | `STF` | `Liveness` | `LivenessProofs` `LivenessExamples` | `PropsLiveness` |
| votes packed into a block | `Builder` `Node` | `Packing` | `PackingProofs` `PackingThms` `PackingOne` `PackingExamples` | `PropsPacking` |
| event bus, HTTP event stream | `EventBus` | `BusSpec` | `BusProofs` `BusThms` | `PropsBus` |
| storage backends | `Backend` | `BackendSpec` | `BackendProofs` | `PropsBackend` |
| signing keys, key manager | `Xmss` | `XmssSpec` | `XmssProofs` `XmssExamples` | `PropsXmss` |
| gossip message ids | `MsgId` | `MsgId` | `MsgIdProofs` | `PropsMsgId` |
| validator key files | `KeyFiles` | `KeyFilesSpec` | `KeyFilesProofs` | `PropsKeyFiles` |
| requests beside commits | `Conc` | `ConcSpec` | `ConcProofs`, `ConcExamples` | `PropsConc` |
| two nodes side by side | (no new code: `Node`) | `AgreeSpec` | `AgreeProofs`, `AgreeExamples` | `PropsAgree` |
| the aggregator role: admin endpoint, shared flag, the actor reading it | `Role` (over `Actor`) | `RoleSpec` | `RoleProofs`, `RoleSim`, `RoleExamples` | `PropsRole` |
| two nodes: the missing ancestors requested and served | `CatchupSpec` (over `Actor`, `Serve`) | `CatchupSpec` | `CatchupProofs`, `CatchupPeer`, `CatchupExamples` | `PropsCatchup` |
| aggregated signatures over the library | `Crypto` | `CryptoSpec` | `CryptoProofs`, `CryptoExamples` | `PropsCrypto` |
| coverage gauges | `Coverage` | `CoverageSpec` | `CoverageProofs` | `PropsCoverage` |
| fork choice tree in the log | `TreeLog` | `TreeLogSpec` | `TreeLogProofs` | `PropsTreeLog` |
| event monitor | `Monitor` | `MonitorSpec` | `MonitorProofs` | `PropsMonitor` |
| event monitor: connections, configuration, geometry | `Collector` | `CollectorSpec` | `CollectorProofs`, `CollectorMore` | `PropsCollector` |
| roots and keys as text | `Text` | `TextSpec` | `TextProofs`, `TextMore` | `PropsText` |
| 64-bit arithmetic of transition and clock | `Width` | `WidthSpec` | `WidthProofs` | `PropsWidth` |
| settings: URLs, committees, ports, key file | `Options` | `OptionsSpec` | `OptionsProofs` | `PropsOptions` |
| page of the event monitor | `Panel` | `PanelSpec` | `PanelProofs` | `PropsPanel` |
| its panel of arrival times | `Swarm` | `SwarmSpec` | `SwarmProofs` | `PropsSwarm` |
| its identifiers of aggregates | `Ids` | `IdsSpec` | `IdsProofs` | `PropsIds` |
| requests and responses as bytes | `ReqWire` | `ReqWireSpec` | `ReqWireProofs` | `PropsReqWire` |
| connections, bootnodes | `Peers` | `Peers` | `PeersProofs` | `PropsPeers` |
| start-up, checkpoint sync | `Startup` | `StartupSpec` | `StartupProofs` `StartupNode` `StartupExamples` | `PropsStartup` |

The property theorems are in the `Props*` files only: each is closed by a lemma of
the proof files, has `Print Assumptions` beneath it and an `Example` showing a
concrete case that meets its hypotheses.

## 3. Plan per property

| id | modelled code | how it is proved |
|----|---------------|------------------|
| C01 | `is_proposer`, `current_proposer`, header check | direct, division lemmas |
| C02 | `state_transition` and callees | inversion of the executable model |
| C03 | same, chains as inductive closure of accepted blocks | induction over chains, ghost list of chain blocks |
| C04 | same + `process_attestations` | chain invariant |
| C05 | same | chain invariant |
| C06 | same, ghost set of included votes | chain invariant relating tallies to included votes |
| C07 | `process_attestations` step | functional characterisation of one step |
| C08 | `try_finalize` | step lemma + chain invariant |
| C09 | `slot_is_justifiable_after` with u64 checked arithmetic | number theory on `N.sqrt`; refuted beyond 2^62, exact below |
| C10 | `justified_slots_ops` | list lemmas on absolute slot status |
| C11 | `serialize_justifications` | chain invariant (sortedness, lengths) |
| C12 | whole STF with explicit panic values | chain invariant implies no panic value |
| C13 | `process_attestations` | fold non-interference |
| C14 | same | false: counterexample chain by `vm_compute` |
| C15–C18 | `fork_choice/src/lib.rs`, `update_safe_target` | permutation lemmas, subtree counting, fuel sufficiency |
| C19 | `record_vote`, promotion | semilattice argument, `Permutation` |
| C20 | key encoding over byte lists | big-endian digit lemmas |
| C21 | `block_root_index_changes`, `update_checkpoints` | tree walk invariant over all head sequences |
| C22 | `insert_state`, `get_state`, `StateDiff` | invariant over operation sequences with arbitrary cache evictions |
| C23, C24 | block tables, pruning | frame lemmas over operation sequences |
| C25, C26 | the two in-memory pools | invariants over operation sequences |
| C27 | anchor consistency, `init_store` | inversion |
| C28 | crash points between commits | false for one crash point (witness); proved for all others |
| C29–C35 | `blockchain/src/store.rs` as a state machine | invariant over all event sequences |
| C30 | same | false (finalized may regress), witness; proved along one chain |
| C34 | same | validity of the own vote false for checkpoint starts, witness; proved from genesis |
| C36 | `reorg_depth` | walk lemmas |
| C37, C38 | `block_builder.rs` | simulation of projected state vs STF |
| C39 | `aggregation.rs` | set lemmas; soundness of all held aggregates as an invariant |
| C40 | `sync_status.rs`, duty gate | case analysis, induction on sequences |
| C41, C42 | pending block maps of the actor | invariant over message sequences relating maps, queue and database |
| C65 | same + restarts | the database clock passes the slot with the message that signs, and never goes back |
| C66 | tick handler | case analysis of the interval, node invariant |
| C43 | tick scheduling | arithmetic |
| C44–C46 | `encoding.rs` | digit lemmas; C45 false |
| C47–C49 | range sync and fetch state machines, all event sequences | invariants over histories; corners of C47, C48 and C49 false (witnesses) |
| C50, C51 | `checkpoint_sync.rs`, `fetch_initial_state`, `Store::from_db_state` | decision characterisation; retry loops against a first-match specification |
| C63 | same + the RPC handlers of the finalized state and block | node invariant; the joining node is a `started` node |
| C64 | request handlers, slot index | node invariant; false after a checkpoint start over an old database (witness) |
| C67 | RPC lookups, `build_status`, block ids as strings | node invariant: the head's state lists exactly its ancestors; false for the head's own slot (witness) |
| C52 | chain events | case analysis; invariant over message sequences |
| C53 | `reaggregate.rs` | sorting lemmas, invariant |
| C54, C55 | subnets, early aggregation | arithmetic on residues, session invariant |
| C68 | gossip handler and topics as strings; snappy and SSZ as parameters | splitting lemmas; case analysis |
| C56 | aggregation session fencing | trace invariant |
| C57, C58 | block response codec | list lemmas over byte streams |
| C59 | `bits_is_subset` | byte/bit lemmas |
| C60 | all message handlers with explicit panics | invariant; false in one corner (witness), only cause proved |
| C61 | pending block storage | false (witness); C41 is the positive part |
| C69 | state transition on two chains | quorum intersection, induction over attestations; false in general (witness), proved up to the first finalization after the fork |
| C70 | vote production over a run | node invariant along the head's chain; false after reorgs and for equal targets (witnesses) |
| C62 | vote selection of `block_builder.rs` against the state transition | the projection tracks the transition through the block; proved with aggregation at the proposer, false without (witness) |
| C71 | `EventBus`, HTTP event stream; the broadcast channel from its documentation | invariant of one connection over all interleavings |
| C72 | `KeyManager`, `advance_key`, the calls of `on_tick`; a key is its prepared window, from the documentation in signature.rs | window invariant over all lives of the actor; the clock orders the requests |
| C73 | `in_memory.rs`, `rocksdb.rs` function by function; RocksDB itself an ordered map per column family | induction over histories for memory; simulation of memory by RocksDB; sorted lists with the same entries are equal; views as interleavings (refuted for RocksDB) |
| C74 | the state transition | three blocks built explicitly (any quorum); invariant: without blocks at square distances no pair of justified slots is neighbouring, so nothing is finalized (witness with 16 validators) |
| C75 | connection events, redial timers, the queues between actor and swarm; libp2p from its documentation | invariant over all interleavings: the peer set after the waiting events is the set of connected peers, and something is under way for every bootnode |
| C76 | `compute_message_id`; gossipsub's duplicate cache from its documentation | injectivity of the hashed bytes (domain, length, topic, content), then induction on the arrivals |
| C77 | `read_validator_keys` and what it calls; YAML, files and key codec as parameters | the grouping loop keeps an invariant (which entry fills which slot), both directions |
| C78 | event monitor: stamping, history ring, hub, refresher; steps of the tasks interleave | invariants over runs; the history is a suffix of what was put in |
| C79 | `fork_choice_tree.rs`, the text as a list of pieces, iteration order of the hash map as an argument | induction on the rounds of the renderer with the column of the parent; disjoint subtrees from decreasing slots |
| C80 | `coverage.rs` as the list of writes to the gauges, over the node model; the snapshot over a list of ticks | bit lists represent sets (invariant of the loops); counts of a partition add up |
| C81 | `crypto/src/lib.rs` over a record of the library's functions; its contract as two records of hypotheses | case analysis of each function; `Forall2` between components, bindings and key lists |
| C82 | every event gives the list of databases it commits; a request is a function of one database per read; `history` and `reads` interleave them | invariant of every committed database, and of every ordered pair of them (headers, bodies and states stay; the finalized slot before is not above a head after) |
| C83 | two runs of the `Node` model compared | fork choice reads only blocks at or above the justified slot, so head and safe target are functions of `same_view`; slot index and finalized checkpoint are functions of head and anchor (the invariants behind C21 and C30); for the order of imports an invariant over block-only runs: states by induction on the slot, latest votes as the maximum of a set, justified checkpoint by its slot and accountable safety (C69) |
| C84 | a system of the shared flag, the admin endpoint (JSON values, last field of a name wins, the extractor's rejections) and the `Actor` model | the answers by induction over the interleaving; without the role a walk through every handler (the signature pool only shrinks, no session, no aggregate); independence of the role by a relational proof (`sim`) over two actors that differ in the signature pool and the session only |
| C85 | the actor and the request handler of a peer's node put together (`exchange`: deliveries, requests, answers) | reverse induction over the chain: each delivery but the last is computed exactly (the block is stored, its parent requested, nothing else changes), the last one is shown to import only blocks of the chain, and C41's delivery theorem gives the states; that a peer which has imported a chain serves a valid one is an invariant of the node (what is stored beside a state is what was verified) |
| C86 | one collector as a state machine over everything that can happen to it; all collectors interleaved on the hub, recording and sending as separate steps | invariant relating delay, last state and phase to the list of finished attempts; the board projects to the single collectors |
| C87 | URL and topic list as text; `bootstrap` and one round of the refresher as functions of the nodes' answers | case analysis; the topic list is read back with the node's parser (C71) |
| C88 | readers and writers of hexadecimal texts as functions on strings; the genesis file as a list of pairs of texts | induction on bytes and texts; all 256 characters by computation; `hex_digits` of `ServeSpec` as the independent notion |
| C89 | the functions of `STF` and the clock again, with every plain operation on u64 reporting an overflow | equality with `STF` under the SSZ limits, which chains from genesis keep; tallies are bounded by the roots they can hold |
| C90 | the functions from options to settings on texts; the parsers of command line and YAML are left out | induction on texts; one spelling of a URL refutes the full statement |
| C91 | start of the page and the propagation panel (JavaScript) as functions on events; drawing is reduced to a list of dots | invariants over all operations; exactness by comparison with the least arrivals; witnesses refute the full statement |
| C92 | the upper panel (JavaScript) as lists of points per node | invariant: a lane is a suffix of the node's events, and what is missing is too old or beyond the cap |
| C93 | the JSON text of an aggregate and FNV-1a with 64 bits, on bytes | the text is uniquely readable; each step of the hash is injective (the prime is invertible); a collision by search outside Coq, checked inside |
| C94 | the request/response codec on top of the payloads of `Wire`, with the SSZ encodings of requests and status as bytes | little-endian and list lemmas in both directions; C46 for the payloads |

## 4. Findings

Behaviours of the code met while proving; each is a theorem unless marked (note).

* C14, C28, C30, C34, C45, C47, C48, C49, C60, C61, C62, C64, C67, C69, C70, C72, C73, C74, C78, C79, C82, C86, C87, C88, C90, C91, C92, C93, C94: refuted as stated, see the `_refuted` theorems.
* C62: without aggregation at the proposer, the selection plans with all the proofs held for a
  vote but one proof is kept; later votes of the block, whose source was to be justified by it,
  are packed and count for nothing.
* C28: a crash between the commit of a block and that of its state leaves a head
  without state; the next safe-target update panics; delivery of the block repairs it.
* C30: the finalized checkpoint follows the head and can go back.
* C34: a node started from a checkpoint whose justified block is older than the
  anchor produces votes its own validation rejects.
* C60: the proof of a rejected block is pruned while its header stays; a block
  naming it as parent makes the actor panic in `process_or_pend_block`
  (`expect("header and parent state exist …").unwrap()`).
* C61: `insert_pending_block` overwrites the stored proof of a waiting block.
* C47: a range sync can stay without peers; after a failure nothing is requested until
  some peer announces a head above ours (`C47_stall`); a batch counts as done on any
  nonempty answer, even one without a block of the batch.
* C48: an empty answer puts the request number back into `outbound_requests`, where it
  stays for good.
* C49: an answer with only other blocks leaves the root marked as pending with no
  request and no retry: it is never requested again (`C49_stuck`).
* C64: a checkpoint start over an own stale database writes the anchor into the old
  tables; the slot index keeps the rows of the old chain, so peers that ask for a slot
  range get blocks that are not ancestors of the head.
* C67: the block endpoint answers 404 for the slot of the head: the lookup uses the head
  state's `historical_block_hashes`, which ends at the head's parent.
* C69: whether a slot may be a target depends on the distance to the slot finalized so far
  *on that chain*. Two chains that have finalized different things therefore skip different
  slots, and a link on one chain can hop over the other's finalized block without any vote
  surrounding another: conflicting blocks are finalized and nobody can be held to account.
* C70: vote sources follow the head's state, targets the safe target walk; after a switch to a
  fork that justified less, a node produces a vote surrounding its own earlier one; and while
  a target is not justified yet, the source moves up and the same target is voted for again.
* C72: `advance_key` assumes a slot outside the prepared window lies after it. A node that
  runs before the first slot of a key (started early, or before genesis with a late key)
  slides the window to the end of the activation interval at the first tick and then cannot
  sign the key's slots, with a message that the key is exhausted; a restart cures it.
* C78: the event monitor's page opens the stream and requests the history without waiting in
  between, and reads the slot geometry before both; the refresher resets the history before
  it switches the geometry. Each of the three windows loses or mixes events.
* C86: nodes of the same name are accepted and share a status entry; a node that accepts and
  drops connections is announced as connected and down in turn, at every attempt.
* C87: a refresh during an outage falls back to five intervals per slot, or to another node's
  geometry, and drops the history; an unknown or empty topic passes the validation.
* C88: a key with 0x is accepted in the genesis file but makes the validator file unreadable.
* C79: the tree in the log is drawn from the first parentless block of the smallest slot in
  hash map order. Pruning keeps every block of the finalized slot, so when two were seen the
  tree may show the losing one alone, without head, justified and finalized block.
* C73: a read view of the RocksDB backend is the database, not a snapshot, while the
  in-memory view holds the read lock. Code that reads an entry and then another through one
  view is atomic under tests and not in production. RocksDB commits with `set_sync(false)`:
  the last batches can be lost with the power; the storage model's crash points are between
  batches and do not include that.
* C82: with RocksDB the reads of one request are not atomic with the actor's commits. A range
  answered across a change of head holds blocks of both forks; `/node/syncing` reads the head
  before the finalized checkpoint and can show the latter above the former (the status message
  reads them in the other order and cannot); the fork choice report can name a head it does not
  contain.
* C74: finality can get stuck for good with far more than two thirds of the validators
  present. Source and target of a finalizing vote must be neighbouring justifiable slots;
  beyond distance 5 one of two neighbours is a square, and `k*k mod n` takes few values when
  n is a power of two (4 of 16, 12 of 64). If exactly those proposers are down when the chain
  is more than five slots past the finalized slot, no continuation finalizes anything, as the
  distances stay relative to the same finalized slot.
* (note) Two validators may be given the same key file, and the public keys listed beside the
  files are not compared with them (`C77_shared_refuted`, `C77_pubkeys_unchecked`).
* (note) Every lost connection of a bootnode schedules its own redial, so a flapping bootnode
  is dialled several times at once (`C75_not_spaced`).
* (note) A checkpoint start over an own stale database can also set the finalized
  checkpoint below the old one.
* (note) A node started from a state only answers 404 on the block endpoint until it
  finalizes something (hypothesis of `C63_served`).
* (note) Children of a rejected block stay pending; a discarded block that waited
  itself stays registered with its parent.
* (note) The own proposed block is imported without collecting blocks that wait for it.
* (note) The store accepts blocks one slot ahead of the clock, the actor one interval.
* (note) Without aggregation at the proposer, the projection of the post-state counts
  votes that the block will not carry: useful votes for the same target are left out.
* (note) Which of two equally good proofs is taken depends on hash set iteration order.
* (note) Children of one aggregation job may overlap each other.
* (note) Re-aggregation also runs after the delivery of a block that is stored already,
  whose proof was then not verified; `C39_own` is about newly imported blocks.
* (`C90_requests_refuted`) `http://p//lean/v0/states/finalized` is taken for the base
  URL `http://p/`: the trailing slash is removed before the path, not after it.
* (`C91_page_refuted`) The page forgets which events it has seen once the history is
  in. One that is in the history and comes over the stream later is drawn twice.
* (`C91_delay_refuted`) The panel forgets old blocks. A late report brings one back, and
  with a wider window the late node is shown as the first.
* (`C92_flood_refuted`) One cap for all topics of a node: 2000 votes within the window
  hide its blocks.
* (`C93_collision_refuted`) The monitor joins reports of aggregates by a hash of 64 bits that
  is not cryptographic. Two votes for different head roots can be shown as one. The roots of
  the witness are chosen freely; in a running network they would be roots of known blocks.
* (`C94_refusal_refuted`) A refusal of a request for blocks, such as of an invalid range,
  arrives as a success without blocks.
* (note) Session ids are slots: if the wall clock goes back, one can be reused.

## 5. Trusted base

* Coq 8.16.1 kernel and the (vm) conversion.
* What `Print Assumptions` prints under each theorem: *Closed under the global
  context* everywhere. `coqchk` lists the seven abstract members of the standard library's
  `Coq.ssr.ssrunder.Under_rel` (loaded through std++) for the context as a whole; no
  theorem depends on them.
* The reading of the Rust code: each definition cites file and lines and says where
  it simplifies.
* Idealisations used as hypotheses where a theorem names them: the block hash is
  injective and never zero (`good_hash`), has no cycles (`acyclic_hash`), only the
  empty body hashes to the empty body's hash; data roots are injective (`inj_data`).
  True of a collision-free hash. Provers that succeed on valid inputs
  (`complete_prover`, `can_sign`) or only make valid proofs (`sound_prover`). In C81
  the multi-signature library is sound (`sound_multisig`) and complete
  (`faithful_multisig`).
* Not modelled: SSZ/Merkleization (except the small messages of C94), XMSS/SNARK cryptography, RocksDB internals,
  libp2p, HTTP servers (C84 models what axum and serde_json hand to the admin
  handlers), metrics (except C80), logging (except C79), OS scheduling, the worker threads of the
  aggregation, u64 overflow outside C09/C44/C45/C89.
