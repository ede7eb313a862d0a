{"id": "C01", "title": "Round-robin proposer schedule", "statement": "For every slot and every non-empty registry exactly one registered validator is reported as proposer, namely slot mod n, and the state transition accepts a block only if its proposer_index is that validator; with an empty registry nobody is proposer and no block is accepted.", "quantifier": "all slots, all registry sizes, all blocks and pre-states", "why_tests_cant": "Unbounded slots and registry sizes; uniqueness is a statement about all validator indices.", "anchors": [{"file": "crates/blockchain/state_transition/src/lib.rs", "symbols": ["is_proposer", "current_proposer", "process_block_header"]}]}
{"id": "C02", "title": "Accepted blocks are linked to their pre-state and commit to their post-state", "statement": "Whenever state_transition accepts a block, the block's slot is strictly above the pre-state's slot and its latest header's slot, its parent_root is the hash of the pre-state's latest header (state root filled in), its state_root is the hash of the resulting state, and the resulting state carries the block's slot, proposer, parent and body root in its latest header; config and validator registry are untouched.", "quantifier": "all pre-states and all blocks, for any hash function", "why_tests_cant": "Ranges over all states and blocks; tests use a handful of fixtures.", "anchors": [{"file": "crates/blockchain/state_transition/src/lib.rs", "symbols": ["state_transition", "process_slots", "process_block_header"]}]}
{"id": "C03", "title": "Block history has exactly one entry per past slot", "statement": "Along every chain of accepted blocks from genesis, historical_block_hashes has length equal to the latest block's slot; entry s is the root of the chain's block at slot s if the chain has one and the zero hash otherwise; it only ever grows by appending and never exceeds HISTORICAL_ROOTS_LIMIT.", "quantifier": "all finite chains of accepted blocks from any genesis, with arbitrary slot gaps", "why_tests_cant": "Induction over unbounded chains with arbitrary gaps.", "anchors": [{"file": "crates/blockchain/state_transition/src/lib.rs", "symbols": ["process_block_header"]}, {"file": "crates/common/types/src/state.rs", "symbols": ["State::from_genesis"]}]}
{"id": "C04", "title": "Justified and finalized slots never move backwards along a chain and stay ordered", "statement": "Along every chain of accepted blocks from genesis, latest_justified.slot and latest_finalized.slot never decrease, and latest_finalized.slot <= latest_justified.slot < latest block slot (or all are 0).", "quantifier": "all chains of accepted blocks from genesis, all attestation contents", "why_tests_cant": "Attestations are adversarial and processed in arbitrary order over unbounded histories.", "anchors": [{"file": "crates/blockchain/state_transition/src/lib.rs", "symbols": ["process_attestations", "try_finalize"]}]}
{"id": "C05", "title": "Justified and finalized checkpoints are blocks of the chain itself", "statement": "After every accepted block on a chain from genesis, latest_justified and latest_finalized name the (non-zero) root recorded in historical_block_hashes at their slot, i.e. a real ancestor block of the state.", "quantifier": "all chains of accepted blocks from genesis", "why_tests_cant": "Invariant over unbounded histories and adversarial attestation data.", "anchors": [{"file": "crates/blockchain/state_transition/src/lib.rs", "symbols": ["process_attestations", "is_valid_vote", "attestation_data_matches_chain"]}]}
{"id": "C06", "title": "A checkpoint is justified only with votes of two thirds of distinct validators", "statement": "Along every chain from genesis, each time a block makes a new slot justified, at least 2/3 of the registry's distinct validators have a set bit in some attestation, contained in blocks of this chain, whose target is exactly the block at that slot; splitting, repeating or re-including votes never counts a validator twice.", "quantifier": "all chains of accepted blocks, all ways of splitting and repeating votes over blocks", "why_tests_cant": "Votes accumulate over many blocks through a serialized tally; double counting can hide in any interleaving of blocks and finalization prunes.", "anchors": [{"file": "crates/blockchain/state_transition/src/lib.rs", "symbols": ["process_attestations", "serialize_justifications"]}]}
{"id": "C07", "title": "Enough fresh votes do justify (completeness of the tally)", "statement": "If an attestation in an accepted block has a justified source, an unjustified, justifiable, later target, and checkpoints on the chain, and its voters together with the validators already tallied for that target make up 2/3 of the registry, then the target slot is justified after that attestation; below 2/3 nothing becomes justified and the tally for the target is exactly the union of the old tally and the new voters, all other tallies unchanged.", "quantifier": "all states satisfying the bookkeeping invariant, all attestations", "why_tests_cant": "Exact functional effect for every state, not only sampled ones.", "anchors": [{"file": "crates/blockchain/state_transition/src/lib.rs", "symbols": ["process_attestations"]}]}
{"id": "C08", "title": "Finalization never skips a justifiable slot", "statement": "Whenever processing an attestation moves latest_finalized, it moves to that attestation's source, which was already justified, above the previous finalized slot, and on the chain; the attestation's target was justified at that very moment; and no slot strictly between source and target is justifiable relative to the previously finalized slot.", "quantifier": "all states and attestations along any chain from genesis", "why_tests_cant": "Universally quantified over the gap between source and target.", "anchors": [{"file": "crates/blockchain/state_transition/src/lib.rs", "symbols": ["try_finalize"]}]}
{"id": "C09", "title": "Justifiable distances are exactly <=5, squares and pronic numbers", "statement": "slot_is_justifiable_after(slot, finalized) is true iff slot >= finalized and the distance is at most 5, a perfect square, or of the form k(k+1), for every pair of u64 values.", "quantifier": "all pairs of 64-bit slots", "why_tests_cant": "2^128 inputs; integer-square-root and overflow corner cases sit near 2^62..2^64.", "anchors": [{"file": "crates/blockchain/state_transition/src/lib.rs", "symbols": ["slot_is_justifiable_after"]}]}
{"id": "C10", "title": "The sliding justified window preserves the status of every slot", "statement": "Advancing the finalized boundary (dropping the front of the window) and extending the window never change the justified status reported for any slot that is still above the boundary and was tracked; extension only adds unjustified slots; marking a slot changes that slot only.", "quantifier": "all windows, boundaries, slots", "why_tests_cant": "Index arithmetic off-by-one errors show only for particular boundary/length combinations.", "anchors": [{"file": "crates/blockchain/state_transition/src/justified_slots_ops.rs", "symbols": ["is_slot_justified", "set_justified", "extend_to_slot", "shift_window"]}]}
{"id": "C11", "title": "Pending-vote bookkeeping in the state stays canonical", "statement": "After every accepted block on a chain from genesis the tracked roots are strictly increasing, non-zero, each is the root of a chain block above the finalized slot, and the flat vote list has exactly one registry-sized segment per root; hence two nodes holding the same tallies serialize identical states and the corresponding structural rejections can never fire on such a chain.", "quantifier": "all chains of accepted blocks from genesis", "why_tests_cant": "Invariant needed at every future block; tests check single transitions.", "anchors": [{"file": "crates/blockchain/state_transition/src/lib.rs", "symbols": ["serialize_justifications", "process_attestations"]}]}
{"id": "C12", "title": "The state transition never panics on chains from genesis", "statement": "Starting from a genesis state within the registry limit, no sequence of accepted blocks followed by an arbitrary next block reaches any expect/unwrap in the state transition: every outcome is an accepted state or a returned error.", "quantifier": "all chains from genesis, all next blocks with SSZ-valid contents", "why_tests_cant": "Absence of panics over all reachable states and adversarial blocks.", "anchors": [{"file": "crates/blockchain/state_transition/src/lib.rs", "symbols": ["process_attestations", "serialize_justifications", "process_block_header"]}, {"file": "crates/blockchain/state_transition/src/justified_slots_ops.rs", "symbols": ["set_justified", "extend_to_slot"]}]}
{"id": "C13", "title": "Votes failing the checks are ignored without side effects", "statement": "An attestation whose source is unjustified, whose target is already justified, off-chain, not later than the source, or not justifiable leaves the whole result of block processing identical to the block without that attestation (apart from block/body roots), while a vote referring to slots outside the window, with no participants, or with out-of-registry bits makes the block rejected as specified.", "quantifier": "all reachable states, all attestation lists", "why_tests_cant": "Non-interference over all positions in all lists.", "anchors": [{"file": "crates/blockchain/state_transition/src/lib.rs", "symbols": ["is_valid_vote", "process_attestations"]}]}
{"id": "C14", "title": "Finalizing a source takes a two-thirds vote naming that source", "statement": "Whenever latest_finalized moves to a source checkpoint, two thirds of the validators have voted (in included attestations) with that same source.", "quantifier": "all chains of accepted blocks from genesis", "why_tests_cant": "Requires relating tallies keyed by target only to vote sources over whole histories.", "anchors": [{"file": "crates/blockchain/state_transition/src/lib.rs", "symbols": ["process_attestations", "try_finalize"]}]}
{"id": "C15", "title": "Fork choice is a function of the block and vote sets", "statement": "The head returned by LMD-GHOST depends only on the set of blocks, the set of votes, the start root and the score threshold: any iteration order of the underlying hash maps gives the same head and the same weights (start root non-zero).", "quantifier": "all block sets, vote sets and all enumeration orders", "why_tests_cant": "Hash-map iteration order is randomized per process; consensus needs equality for all orders.", "anchors": [{"file": "crates/blockchain/fork_choice/src/lib.rs", "symbols": ["compute_lmd_ghost_head", "compute_block_weights"]}]}
{"id": "C16", "title": "A block's weight is the number of validators voting for it or a descendant", "statement": "For every block above the start slot, the reported weight equals the number of validators whose latest vote's head is that block or a descendant of it within the supplied block set.", "quantifier": "all block sets whose parents have smaller slots, all vote maps", "why_tests_cant": "Counting argument over arbitrary trees.", "anchors": [{"file": "crates/blockchain/fork_choice/src/lib.rs", "symbols": ["compute_block_weights"]}]}
{"id": "C17", "title": "GHOST head is the greedy heaviest leaf under the start root", "statement": "For a start root in the block set and threshold zero, the head is reached from the start by repeatedly moving to the child with the greatest (weight, root); it descends from the start root and has no child in the block set; the computation terminates on every block set whose parents have smaller slots.", "quantifier": "all block sets with slot-decreasing parents, all votes", "why_tests_cant": "Unbounded trees and vote distributions; termination.", "anchors": [{"file": "crates/blockchain/fork_choice/src/lib.rs", "symbols": ["compute_lmd_ghost_head"]}]}
{"id": "C18", "title": "Every block between justified and safe target has two-thirds fresh support", "statement": "With threshold ceil(2n/3), every block on the path from the justified root (exclusive) to the computed safe target is supported by pending votes of at least 2n/3 distinct validators, and the safe target cannot be extended: no child of it has that support.", "quantifier": "all trees, all pending vote maps, all n", "why_tests_cant": "Quantifies over trees and vote sets.", "anchors": [{"file": "crates/blockchain/src/store.rs", "symbols": ["update_safe_target"]}, {"file": "crates/blockchain/fork_choice/src/lib.rs", "symbols": ["compute_lmd_ghost_head"]}]}
{"id": "C19", "title": "Latest-vote tracking is order-independent and keeps the newest vote", "statement": "After any sequence of vote deliveries each validator's recorded vote is the delivered vote with the greatest (slot, data root); hence any two deliveries of the same set of votes in any order and with any duplication leave identical fork-choice votes, also across promotion of pending votes to known.", "quantifier": "all sequences of vote deliveries and promotions, all orders", "why_tests_cant": "Arrival order is adversarial; needs all permutations.", "anchors": [{"file": "crates/storage/src/store.rs", "symbols": ["record_vote", "should_replace_vote", "promote_new_aggregated_payloads", "record_known_attestation_votes"]}]}
{"id": "C20", "title": "Slot-root keys sort by slot and decode back", "statement": "The byte keys used for slot-indexed tables decode to the slot and root they were built from, are all distinct for distinct pairs, and compare lexicographically exactly as (slot, root) pairs compare; the bare encoding of a slot separates keys of smaller slots from keys of that slot and above.", "quantifier": "all 64-bit slots and 32-byte roots", "why_tests_cant": "Order-preservation over the full domain; pruning by range relies on it.", "anchors": [{"file": "crates/storage/src/store.rs", "symbols": ["encode_slot_root_key", "decode_slot_root_key", "encode_block_root_key", "prune_live_chain", "prune_old_block_proofs"]}]}
{"id": "C21", "title": "The canonical slot index always lists exactly the head's ancestors", "statement": "After any sequence of head changes (extensions, short or deep reorgs, switches to lower heads) among stored blocks, the slot index maps slot s to root r iff r is a block of the current head's ancestry (down to the anchor) with slot s; range reads therefore return exactly the canonical signed blocks of the range in slot order.", "quantifier": "all block trees rooted at the anchor, all sequences of heads", "why_tests_cant": "Reorg index maintenance over all trees and sequences.", "anchors": [{"file": "crates/storage/src/store.rs", "symbols": ["block_root_index_changes", "update_checkpoints", "get_signed_blocks_by_slot_range"]}]}
{"id": "C22", "title": "A stored state reads back unchanged", "statement": "For every sequence of imports, reading the state of any imported block (from cache, snapshot or by replaying diffs over any number of ancestors) returns exactly the state that was inserted for that block root, independently of cache evictions.", "quantifier": "all import sequences, all cache contents, all snapshot placements, any chain depth", "why_tests_cant": "Diff chains of any length, any fork structure, any eviction pattern.", "anchors": [{"file": "crates/storage/src/store.rs", "symbols": ["insert_state", "get_state", "reconstruct_state"]}, {"file": "crates/storage/src/state_diff.rs", "symbols": ["StateDiff::from_states", "reconstruct", "validate_history_append"]}]}
{"id": "C23", "title": "Imported blocks read back unchanged until their proof is pruned", "statement": "A block inserted with its proof is returned identically by get_signed_block afterwards, whatever other blocks are inserted, unless its proof was range-pruned, in which case it is reported missing rather than fabricated (except slot 0, where an empty proof is synthesized).", "quantifier": "all interleavings of inserts and prunes", "why_tests_cant": "Frame property over all histories.", "anchors": [{"file": "crates/storage/src/store.rs", "symbols": ["insert_signed_block", "get_signed_block", "signed_block_from_view", "write_signed_block", "prune_old_block_proofs"]}]}
{"id": "C24", "title": "Pruning removes only finalized, old data", "statement": "prune_old_block_proofs removes proofs exactly of blocks with slot < tip-21600 and only if that cutoff is <= finalized slot, so proofs of blocks at or above the finalized slot and of the last 21600 slots always survive; live-chain pruning removes exactly the entries with slot below the finalized slot.", "quantifier": "all tables, tips and finalized slots", "why_tests_cant": "Range-delete bounds over all keys.", "anchors": [{"file": "crates/storage/src/store.rs", "symbols": ["prune_old_block_proofs", "prune_live_chain", "prune_old_data"]}]}
{"id": "C25", "title": "Aggregated-payload pool is bounded, deduplicated and FIFO", "statement": "After any sequence of pushes, drains and prunes the pool holds at most its capacity of proofs, its counter equals the number of stored proofs, no stored proof's participants are contained in another's for the same data, every pushed proof is covered by a stored one for the same data or its data entry was evicted/pruned/drained, and eviction removes whole data entries in first-insertion order.", "quantifier": "all operation sequences, all participant bitfields, all capacities", "why_tests_cant": "Counter drift and subset removal errors need specific histories.", "anchors": [{"file": "crates/storage/src/store.rs", "symbols": ["PayloadBuffer::push", "PayloadBuffer::drain", "PayloadBuffer::prune"]}, {"file": "crates/common/types/src/attestation.rs", "symbols": ["bits_is_subset"]}]}
{"id": "C26", "title": "Gossip-signature pool is bounded and its counter exact", "statement": "After any sequence of inserts, deletes and prunes the pool holds at most its capacity of signatures, the counter equals the number stored, at most one signature per (validator, data) is kept and it is the last one inserted, deletion and pruning remove exactly the requested entries, and no empty groups remain.", "quantifier": "all operation sequences and capacities", "why_tests_cant": "Counter underflow/drift appears only after particular interleavings.", "anchors": [{"file": "crates/storage/src/store.rs", "symbols": ["GossipSignatureBuffer::insert", "GossipSignatureBuffer::delete", "GossipSignatureBuffer::prune"]}]}
{"id": "C27", "title": "Anchor initialisation yields a consistent store or refuses", "statement": "Initialising from an anchor state and block succeeds only if header fields agree and both state roots (when non-zero) match the state's hash; the new store's head, safe target, justified and finalized all name the anchor block, whose header, state and live-chain entry are present, and the anchor root equals the supplied block's root.", "quantifier": "all anchor states and blocks", "why_tests_cant": "All field-combination mismatches.", "anchors": [{"file": "crates/common/types/src/state.rs", "symbols": ["anchor_pair_is_consistent"]}, {"file": "crates/storage/src/store.rs", "symbols": ["get_forkchoice_store", "init_store"]}]}
{"id": "C28", "title": "Head always has an available state across crashes", "statement": "After a crash between any two database commits of a block import and a restart, every later fork-choice update selects a head whose state is available (so reading the head state cannot panic).", "quantifier": "all crash points between commits of a block import, all stores", "why_tests_cant": "Crash points are not reachable from unit tests.", "anchors": [{"file": "crates/blockchain/src/store.rs", "symbols": ["on_block_core", "update_head"]}, {"file": "crates/storage/src/store.rs", "symbols": ["insert_signed_block", "insert_state", "head_state", "from_db_state"]}]}
{"id": "C29", "title": "Node checkpoints: justified slot is monotone, head descends from it and has a state", "statement": "Under any sequence of block imports, gossip deliveries and ticks from an anchor, the store's justified slot never decreases, the justified block is in the live chain with slot >= every finalized slot ever reported, the head is a stored block with state descending from the justified block, and parent links of all live blocks decrease in slot.", "quantifier": "all event sequences from any anchor, any hash and signature oracles", "why_tests_cant": "Global invariant over arbitrary interleavings of events.", "anchors": [{"file": "crates/blockchain/src/store.rs", "symbols": ["on_block_core", "update_head", "on_tick"]}, {"file": "crates/storage/src/store.rs", "symbols": ["update_checkpoints"]}]}
{"id": "C30", "title": "The node's finalized checkpoint never regresses", "statement": "Under any sequence of block imports, gossip deliveries and ticks, the slot of the store's finalized checkpoint never decreases.", "quantifier": "all event sequences from genesis", "why_tests_cant": "Needs fork histories where the head moves to a branch with an older finalized state.", "anchors": [{"file": "crates/blockchain/src/store.rs", "symbols": ["update_head"]}, {"file": "crates/storage/src/store.rs", "symbols": ["update_checkpoints"]}]}
{"id": "C31", "title": "Block import is idempotent and atomic on rejection", "statement": "Importing a block whose state is already stored changes nothing; a rejected block leaves blocks, states, checkpoints, head and votes unchanged; an accepted block becomes retrievable with its post-state and enters fork choice.", "quantifier": "all stores, all blocks (valid or not)", "why_tests_cant": "All rejection paths times all stores.", "anchors": [{"file": "crates/blockchain/src/store.rs", "symbols": ["on_block_core"]}]}
{"id": "C32", "title": "Import gates on untrusted blocks", "statement": "A block is imported only if its parent's state is known, it is at most one slot ahead of the local clock, its gap to the parent state is within the history limit, it carries at most 8 attestation data and no data twice, and the signature check passed for exactly the participants named by its bits and for its proposer's proposal key over the block root.", "quantifier": "all stores, all blocks, all verifier behaviours", "why_tests_cant": "Every rejection path and every participant bitfield.", "anchors": [{"file": "crates/blockchain/src/store.rs", "symbols": ["on_block_core", "verify_block_signatures"]}]}
{"id": "C33", "title": "Accepted gossip votes respect time and topology", "statement": "A vote passes validation iff its three blocks are stored with the claimed slots, source is an ancestor-or-equal of target and target of head, head descends from the finalized checkpoint, vote slot >= head slot, and the vote's slot has started locally up to one interval of disparity.", "quantifier": "all stores with slot-decreasing parents, all attestation data", "why_tests_cant": "Ancestor walks over arbitrary trees.", "anchors": [{"file": "crates/blockchain/src/store.rs", "symbols": ["validate_attestation_data", "checkpoint_is_ancestor"]}]}
{"id": "C34", "title": "Attestation duty: produced votes are valid and on the head's chain", "statement": "In every reachable store the attestation target is on the head's chain, at a slot that is justifiable (relative to the finalized slot) or clamped to the justified checkpoint, not below the justified slot, no more than 3 blocks behind the head before justifiability adjustment; and the produced attestation passes the node's own validation whenever its slot is not before the head's slot and has started.", "quantifier": "all reachable stores, all slots", "why_tests_cant": "Loops walking parents over arbitrary chains; panics on missing parents.", "anchors": [{"file": "crates/blockchain/src/store.rs", "symbols": ["produce_attestation_data", "get_attestation_target_with_checkpoints"]}]}
{"id": "C35", "title": "Clock ticks: time only moves forward and each interval's duty runs", "statement": "on_tick sets the store clock to the interval of the timestamp, never backwards; when less than one slot behind it runs the duties of every intermediate interval in order exactly once, when further behind exactly those of the last five intervals; a timestamp at or before the current interval does nothing.", "quantifier": "all store times, timestamps, genesis times", "why_tests_cant": "Arithmetic over all timestamps, catch-up lengths.", "anchors": [{"file": "crates/blockchain/src/store.rs", "symbols": ["on_tick"]}, {"file": "crates/blockchain/src/lib.rs", "symbols": ["SlotInterval"]}]}
{"id": "C36", "title": "Reorg depth report", "statement": "A head change is reported as a reorg iff the lower head is not an ancestor-or-equal of the other (within 128 blocks), and the reported depth is the number of blocks walked from the higher head, capped at 128.", "quantifier": "all block trees and head pairs", "why_tests_cant": "All trees.", "anchors": [{"file": "crates/blockchain/src/store.rs", "symbols": ["reorg_depth"]}]}
{"id": "C37", "title": "Produced blocks are importable", "statement": "Whatever attestation pool the proposer holds (participants within the registry), the block built on the head state for a later slot by the scheduled proposer is accepted by the state transition, carries at most 8 distinct attestation data, no data twice, only pool data whose participants are unions of pool proofs' participants.", "quantifier": "all head states reachable from genesis, all pools, all slots", "why_tests_cant": "Pool contents are adversarial; selection loops over rounds.", "anchors": [{"file": "crates/blockchain/src/block_builder.rs", "symbols": ["build_block", "select_attestations", "ProjectedState", "compact_attestations"]}]}
{"id": "C38", "title": "Greedy proof selection only keeps useful proofs", "statement": "Greedy selection of proofs for one attestation data picks proofs each adding at least one new validator, covers with the selection exactly the union of participants of the chosen proofs, and (when unbounded) covers every validator any candidate proof covers; aggregated bits are exactly the union.", "quantifier": "all proof lists and participants", "why_tests_cant": "Greedy loops over arbitrary sets.", "anchors": [{"file": "crates/blockchain/src/block_builder.rs", "symbols": ["extend_proofs_greedily", "union_aggregation_bits"]}, {"file": "crates/blockchain/src/aggregation.rs", "symbols": ["select_proofs_greedily"]}]}
{"id": "C39", "title": "Aggregation jobs never double-count a validator as raw signer and child", "statement": "Every aggregation job the node starts has raw signers disjoint from its children's participants, no duplicate raw signer, at most the allowed children, enough inputs to aggregate, and its declared participants are exactly the union of raw signers and children's participants in ascending order.", "quantifier": "all signature pools and existing proofs", "why_tests_cant": "Set arithmetic over arbitrary pools.", "anchors": [{"file": "crates/blockchain/src/aggregation.rs", "symbols": ["resolve_job", "aggregate_job", "select_proofs_greedily"]}]}
{"id": "C40", "title": "Sync status hysteresis", "statement": "The duty gate opens/closes exactly per the documented thresholds: with a live network, a node leaves 'syncing' only when at most 2 slots behind and enters it only when more than 4 behind, so a lag oscillating within 3..4 never flips the status; when the whole network is stalled by more than 8 slots it is never reported as syncing.", "quantifier": "all lag sequences", "why_tests_cant": "Hysteresis is about sequences of observations.", "anchors": [{"file": "crates/blockchain/src/sync_status.rs", "symbols": ["SyncStatusTracker::update", "duties_allowed"]}]}
{"id": "C41", "title": "Pending blocks: nothing is lost and nothing imported twice", "statement": "For any arrival order, with repetitions and any other messages in between, of a set of valid blocks that build on known states or on each other, once all have been delivered every one of them has been imported with its own post-state and none remains pending; no block is imported twice and each is imported after its parent. (Blocks above the finalized slot and not from the future, delivered unaltered, and not on a branch that finality excludes.)", "quantifier": "all trees of blocks and all arrival permutations (with duplicates)", "why_tests_cant": "Exponentially many arrival orders.", "anchors": [{"file": "crates/blockchain/src/lib.rs", "symbols": ["on_block", "process_or_pend_block", "collect_pending_children"]}]}
{"id": "C42", "title": "Pending bookkeeping stays consistent and bounded work per event", "statement": "After every event the child->parent and parent->children pending maps describe the same relation, blocks at or below the finalized slot or too far in the future are discarded with their whole pending subtree, and processing one event terminates. Only a delivered block makes the node ask its peers for a block, and then for at most one: an ancestor of the delivered block that the node has nothing of.", "quantifier": "all event sequences", "why_tests_cant": "Invariant over histories with discards.", "anchors": [{"file": "crates/blockchain/src/lib.rs", "symbols": ["process_or_pend_block", "discard_pending_subtree", "collect_pending_children"]}]}
{"id": "C43", "title": "Ticks are scheduled on the next interval boundary", "statement": "From any wall-clock time after genesis the node waits at least 1 and at most 800 ms, and before genesis until genesis; the wait ends at the first interval boundary, boundaries being aligned to genesis; after a handler that overran one or more boundaries the next tick runs immediately.", "quantifier": "all timestamps and handler durations", "why_tests_cant": "All ms values.", "anchors": [{"file": "crates/blockchain/src/lib.rs", "symbols": ["ms_until_next_interval", "handle_tick"]}]}
{"id": "C44", "title": "Length prefixes round-trip and are prefix-free", "statement": "Decoding an encoded 32-bit length returns it and exactly the bytes that follow, for every value and every continuation; distinct lengths have distinct encodings; encodings are at most 5 bytes.", "quantifier": "all u32 values and byte continuations", "why_tests_cant": "2^32 values times continuations.", "anchors": [{"file": "crates/net/p2p/src/req_resp/encoding.rs", "symbols": ["encode_varint", "decode_varint", "read_varint"]}]}
{"id": "C45", "title": "Every accepted length prefix is canonical", "statement": "decode_varint accepts a byte string only if it is the canonical encoding of the value it returns (no two byte strings decode to the same value and no value is silently truncated).", "quantifier": "all byte strings", "why_tests_cant": "Malformed inputs are unbounded.", "anchors": [{"file": "crates/net/p2p/src/req_resp/encoding.rs", "symbols": ["decode_varint"]}]}
{"id": "C46", "title": "Framed payload reading is bounded and exact", "statement": "Reading a framed payload never buffers more compressed bytes than the fixed cap, never accepts a payload whose declared size exceeds the cap, consumes from the stream exactly the bytes of the frame on success, and returns exactly the declared number of bytes.", "quantifier": "all byte streams", "why_tests_cant": "Adversarial streams of any length.", "anchors": [{"file": "crates/net/p2p/src/req_resp/encoding.rs", "symbols": ["decode_payload", "read_snappy_frame", "write_payload"]}]}
{"id": "C47", "title": "Range sync: batches are disjoint, bounded, in order and driven to the target", "statement": "Range sync never has more than one batch outstanding, each batch has between 1 and 1024 slots inside (head, target], consecutive batches neither overlap nor leave gaps while progress is made, the target never decreases while a peer advertising it remains, and the state is dropped exactly when the target is reached or no eligible peer is left.", "quantifier": "all sequences of peer status, responses and failures", "why_tests_cant": "State machine over arbitrary event interleavings.", "anchors": [{"file": "crates/net/p2p/src/lib.rs", "symbols": ["RangeSyncState"]}, {"file": "crates/net/p2p/src/req_resp/handlers.rs", "symbols": ["request_next_range_batch", "handle_blocks_by_range_response", "fail_range_request"]}]}
{"id": "C48", "title": "Block fetch retries are bounded with exponential backoff", "statement": "For each requested root the node makes at most 10 attempts, attempt k is retried after 5*2^(k-1) ms, peers that failed are avoided until every connected peer failed, and after the last attempt or a success nothing about the root remains tracked.", "quantifier": "all sequences of failures and successes", "why_tests_cant": "Stateful over all interleavings of requests for many roots.", "anchors": [{"file": "crates/net/p2p/src/req_resp/handlers.rs", "symbols": ["handle_fetch_failure", "fetch_block_from_peer"]}, {"file": "crates/net/p2p/src/lib.rs", "symbols": ["handle_retry_block_fetch"]}]}
{"id": "C49", "title": "A fetch request for a missing block can always be retried", "statement": "Whatever a peer answers to a by-root request, afterwards either the block was delivered, or a retry is scheduled, or the root is no longer considered in flight so that a later request for it is issued.", "quantifier": "all peer responses", "why_tests_cant": "Adversarial responses.", "anchors": [{"file": "crates/net/p2p/src/req_resp/handlers.rs", "symbols": ["handle_blocks_by_root_response"]}, {"file": "crates/net/p2p/src/lib.rs", "symbols": ["FetchBlock"]}]}
{"id": "C50", "title": "Checkpoint state verification", "statement": "A downloaded checkpoint state is accepted iff it is a non-genesis state with a non-empty registry equal to the local genesis (time, count, consecutive indices, both keys), finalized <= slot, justified >= finalized, equal roots at equal slots, header slot <= state slot, and when the header sits at the finalized/justified slot its root is the checkpoint root.", "quantifier": "all states", "why_tests_cant": "All field combinations.", "anchors": [{"file": "bin/ethlambda/src/checkpoint_sync.rs", "symbols": ["verify_checkpoint_state"]}, {"file": "crates/common/types/src/genesis.rs", "symbols": ["verify_state_genesis"]}]}
{"id": "C51", "title": "Start-up source selection", "statement": "On start the node resumes its database iff it holds chain state of this network that is at most 450 slots behind or no checkpoint URL is given; it never writes a new anchor over a database of another network; with URLs it uses the first URL that yields a verified consistent pair and fails if none does; otherwise genesis.", "quantifier": "all database contents, clocks, URL outcomes", "why_tests_cant": "Combinations of conditions.", "anchors": [{"file": "bin/ethlambda/src/main.rs", "symbols": ["fetch_initial_state"]}, {"file": "crates/storage/src/store.rs", "symbols": ["from_db_state"]}, {"file": "bin/ethlambda/src/checkpoint_sync.rs", "symbols": ["fetch_anchor_with_retry"]}]}
{"id": "C52", "title": "Chain events match the state change, in order", "statement": "Comparing two snapshots emits head, then justified, then finalized events, each exactly when that value changed, with the new value; head events only for recent heads; topic names parse back to the topic they were printed from and no other string parses.", "quantifier": "all snapshot pairs, all strings", "why_tests_cant": "All pairs.", "anchors": [{"file": "crates/blockchain/src/events.rs", "symbols": ["ChainEventSnapshot", "Topic"]}]}
{"id": "C53", "title": "Re-aggregation picks only votes that add something, best first, bounded", "statement": "From an imported block at most 4 attestations are selected for re-aggregation, all with targets above the justified slot and at least one validator not covered locally, in order of decreasing number of new validators; no unselected candidate adds more than a selected one.", "quantifier": "all blocks and local pools", "why_tests_cant": "Arbitrary coverage sets.", "anchors": [{"file": "crates/blockchain/src/reaggregate.rs", "symbols": ["select_candidates"]}]}
{"id": "C54", "title": "Attestation subnets", "statement": "A node subscribes to exactly the subnets of its own validators (validator mod committee count) plus explicitly configured ones when aggregating (subnet 0 if it aggregates with neither validators nor configured subnets), and each vote is published on the subnet of its validator, so every vote of a validator is published on one of the committee_count subnets and by a validator's own node on a subscribed one.", "quantifier": "all validator sets and committee counts", "why_tests_cant": "All combinations.", "anchors": [{"file": "crates/net/p2p/src/lib.rs", "symbols": ["attestation_subscription_subnets"]}, {"file": "crates/net/p2p/src/gossipsub/handler.rs", "symbols": ["publish_attestation"]}]}
{"id": "C55", "title": "Early aggregation fires at most once per slot, only with two thirds of the expected votes", "statement": "Early aggregation starts only inside the 600 ms window before the aggregation interval, at most once per slot, only when some signature group for the slot has at least ceil(2/3) of the votes expected on the node's subnets; expected votes are exactly the number of validators assigned to those subnets. An aggregator that did not start early starts at the aggregation interval. A session makes two aggregates, or one when an own validator proposes in the next slot.", "quantifier": "all validator/committee counts, all message sequences", "why_tests_cant": "Counting over residues for all n and committee counts.", "anchors": [{"file": "crates/blockchain/src/lib.rs", "symbols": ["maybe_start_early_aggregation"]}]}
{"id": "C56", "title": "Results of a stale aggregation session are never applied", "statement": "Aggregates produced by a worker are published and stored only if they belong to the currently active session; after a new session starts, no result of an older one has any effect.", "quantifier": "all interleavings of session starts, results and completions", "why_tests_cant": "Message interleavings.", "anchors": [{"file": "crates/blockchain/src/lib.rs", "symbols": ["AggregateProduced", "start_aggregation_session"]}]}
{"id": "C57", "title": "A block response is received as it was sent", "statement": "Decoding the bytes written for a block response returns exactly the blocks whose encoding fits one payload, in the order they were sent, whatever the blocks are.", "quantifier": "all block lists", "why_tests_cant": "Unbounded lists of blocks of any size, including oversized ones in any position.", "anchors": [{"file": "crates/net/p2p/src/req_resp/codec.rs", "symbols": ["write_response", "decode_blocks_response"]}, {"file": "crates/net/p2p/src/req_resp/encoding.rs", "symbols": ["write_payload", "decode_payload"]}]}
{"id": "C58", "title": "The number of blocks buffered for one response is bounded", "statement": "However many chunks a peer sends in answer to one block request, the node buffers at most a fixed number of blocks (1024 are the most it ever asks for).", "quantifier": "all byte streams of a peer", "why_tests_cant": "Adversarial streams of any length.", "anchors": [{"file": "crates/net/p2p/src/req_resp/codec.rs", "symbols": ["decode_blocks_response"]}]}
{"id": "C59", "title": "The participant subset test is exact", "statement": "bits_is_subset(a, b) is true iff every validator whose bit is set in a has its bit set in b, for bitlists of any, also different, lengths.", "quantifier": "all pairs of bitlists", "why_tests_cant": "All bitlists of all lengths, including lengths that are no multiple of eight.", "anchors": [{"file": "crates/common/types/src/attestation.rs", "symbols": ["bits_is_subset"]}]}
{"id": "C60", "title": "No message makes the node panic", "statement": "Whatever messages (ticks, blocks, votes, aggregates, worker results) a node has received since it was started, handling one more never panics.", "quantifier": "all message histories, all block contents, all clock values below the 32-bit slot limit", "why_tests_cant": "A panic takes down the node for good and the triggering history can be arbitrarily long.", "anchors": [{"file": "crates/blockchain/src/lib.rs", "symbols": ["handle_tick", "on_block", "process_or_pend_block"]}, {"file": "crates/storage/src/store.rs", "symbols": ["get_signed_block", "prune_old_block_proofs"]}]}
{"id": "C61", "title": "A forged copy of a block does not prevent its import", "statement": "If all blocks of a valid tree have been delivered, they are all imported, also when a peer has additionally delivered altered copies (the same block with another proof).", "quantifier": "all delivery histories with altered copies", "why_tests_cant": "Depends on the order of the genuine and the altered copy.", "anchors": [{"file": "crates/blockchain/src/lib.rs", "symbols": ["process_or_pend_block"]}, {"file": "crates/storage/src/store.rs", "symbols": ["insert_pending_block", "write_signed_block"]}]}
{"id": "C63", "title": "Checkpoints served by running nodes are accepted by the others", "statement": "Once its finalized block is not genesis, a running node serves over HTTP a finalized state that every node of the same network accepts as checkpoint, together with the block of exactly that state; a node that starts from what running nodes serve is a node for which all the other properties hold.", "quantifier": "all histories of the serving node and all answers of the configured URLs", "why_tests_cant": "The served state depends on the whole history (forks, prunings, restarts) of the serving node.", "anchors": [{"file": "crates/net/rpc/src/base.rs", "symbols": ["get_latest_finalized_state", "get_latest_finalized_block"]}, {"file": "bin/ethlambda/src/checkpoint_sync.rs", "symbols": ["verify_checkpoint_state", "fetch_finalized_anchor"]}, {"file": "crates/storage/src/store.rs", "symbols": ["Store::get_forkchoice_store", "Store::insert_signed_block"]}]}
{"id": "C64", "title": "Block requests of peers are answered from the node's own chain", "statement": "However the node was started and whatever it has received since, a request for the blocks of a slot range is answered with exactly the stored blocks of the head's chain with slots in that range, in ascending order, at most 1024 of them; a request by roots is answered with exactly the stored blocks of the roots asked for, in their order.", "quantifier": "all start-ups, all message histories, all requests", "why_tests_cant": "Depends on every head switch and every restart the node has been through.", "anchors": [{"file": "crates/net/p2p/src/req_resp/handlers.rs", "symbols": ["handle_blocks_by_root_request", "handle_blocks_by_range_request", "canonical_blocks_by_range"]}, {"file": "crates/storage/src/store.rs", "symbols": ["Store::get_signed_blocks_by_slot_range", "Store::get_signed_block", "Store::init_store"]}]}
{"id": "C65", "title": "An own validator never votes twice in a slot and never proposes twice for a slot", "statement": "Over the whole life of the node, with restarts from its database and with a wall clock that jumps in either direction, it sends at most one vote per own validator and slot and at most one block per slot, and at most one message makes it ask its keys to sign votes (or a block) of a given slot.", "quantifier": "all message histories with restarts between messages, all clocks", "why_tests_cant": "Double signing is slashable and irreversible; it depends on the whole history including restarts.", "anchors": [{"file": "crates/blockchain/src/lib.rs", "symbols": ["handle_tick", "produce_attestations", "propose_block"]}, {"file": "crates/blockchain/state_transition/src/lib.rs", "symbols": ["on_tick"]}]}
{"id": "C66", "title": "Duties are carried out when they are due", "statement": "When the node handles a tick of the voting interval it has not handled yet and is not held back by the sync gate, every own validator whose key signs sends a vote of the slot, for the node's head; in the last interval of a slot the own validator whose turn the next slot is builds a block on the node's proposal head, and if the block is importable it is imported and sent.", "quantifier": "all reachable nodes, all clocks and configurations", "why_tests_cant": "Ranges over all node states and all tick patterns.", "anchors": [{"file": "crates/blockchain/src/lib.rs", "symbols": ["handle_tick", "produce_attestations", "propose_block", "get_our_proposer"]}]}
{"id": "C67", "title": "HTTP lookups and status messages describe the node's own chain", "statement": "A lookup by root gives the stored block (header) with exactly that root, or 404. A lookup by slot gives the block of that slot on the chain of the head, and 404 only if the slot is empty or out of range. The status message carries the finalized checkpoint and the head with their true slots, the finalized slot not above the head's; the genesis endpoint reports the chain's genesis time and validator count; the fork choice endpoint lists each live block once, with its true slot, parent, proposer and the number of validators whose latest counted vote is for it or a descendant.", "quantifier": "all reachable nodes, all block ids", "why_tests_cant": "Depends on the whole history of imports, head switches and pruning; tests look at a few hand-made stores.", "anchors": [{"file": "crates/net/rpc/src/blocks.rs", "symbols": ["resolve_block_id", "resolve_slot", "get_block", "get_block_header"]}, {"file": "crates/net/rpc/src/fork_choice.rs", "symbols": ["get_fork_choice"]}, {"file": "crates/net/rpc/src/genesis.rs", "symbols": ["get_genesis"]}, {"file": "crates/net/p2p/src/req_resp/handlers.rs", "symbols": ["build_status"]}]}
{"id": "C68", "title": "What is published by gossip is received as the same message", "statement": "A block, vote or aggregate of at most 10 MiB published by one node is decoded by every subscribed node to the same message and handed to its chain logic as the same kind; a larger one is dropped unread, whatever it claims to be; on the topics a node subscribes to, a payload is taken for a block, vote or aggregate only on the topic of that kind.", "quantifier": "all messages, all subnets, all payloads", "why_tests_cant": "Topic names are built and taken apart as text with unbounded numbers in them; payloads come from untrusted peers.", "anchors": [{"file": "crates/net/p2p/src/gossipsub/handler.rs", "symbols": ["handle_gossipsub_message", "publish_block", "publish_attestation", "publish_aggregated_attestation"]}, {"file": "crates/net/p2p/src/gossipsub/encoding.rs", "symbols": ["decompress_message", "compress_message"]}, {"file": "crates/net/p2p/src/gossipsub/messages.rs", "symbols": ["block_topic", "aggregation_topic", "attestation_subnet_topic"]}]}
{"id": "C69", "title": "Conflicting finalized blocks cost a third of the validators", "statement": "Whenever two chains of valid blocks from the same genesis finalize blocks of which neither chain contains the other's, at least a third of the validators provably broke the voting rules: the votes in the two chains contain, for each of them, two different votes for the same target slot, or one vote surrounding the other.", "quantifier": "all pairs of chains of valid blocks, all validator sets and votes", "why_tests_cant": "Quantifies over all pairs of chains and all behaviours of the validators.", "anchors": [{"file": "crates/blockchain/state_transition/src/lib.rs", "symbols": ["process_attestations", "is_valid_vote", "try_finalize", "slot_is_justifiable_after"]}]}
{"id": "C70", "title": "A validator that follows its node commits no offence", "statement": "Of the votes that a node produces at different slots during one run, no two are for the same target slot with different source or target and none surrounds another.", "quantifier": "all message histories between the two votes", "why_tests_cant": "Depends on every head switch between the two votes.", "anchors": [{"file": "crates/blockchain/state_transition/src/lib.rs", "symbols": ["produce_attestation_data", "get_attestation_target_with_checkpoints", "update_head"]}]}
{"id": "C62", "title": "The votes in a proposed block count", "statement": "Every vote a proposer packs into its block carries all the participants the node holds for it and, when the block is imported, records at its place a vote that was not recorded yet (votes of the first slots for the genesis block excepted). At each place no other vote the node holds is preferable: one that finalizes comes before one that justifies, that before others; then the later target and vote, or the more new voters. A block with room left leaves out no vote that would still record something.", "quantifier": "all reachable nodes, pools, slots and configurations", "why_tests_cant": "The builder predicts the state transition with its own simplified projection; whether the prediction agrees depends on the whole chain and on every earlier choice in the block.", "anchors": [{"file": "crates/blockchain/src/block_builder.rs", "symbols": ["select_attestations", "ProjectedState", "score_entry", "pick_best_candidate", "keep_best_proof_per_data"]}, {"file": "crates/blockchain/state_transition/src/lib.rs", "symbols": ["process_attestations"]}]}
{"id": "C71", "title": "The event stream is complete up to announced gaps", "statement": "A client of the event stream gets, in the order of emission and once each, the events of the topics it asked for among those emitted since it connected; events left out are announced by a comment with their exact number and are left out only if more than 8192 events were waiting for it. A client that keeps up gets every event, whatever other clients do. The stream ends only when the node shuts down, after all events. Requests without topics or with an unknown topic are refused.", "quantifier": "all interleavings of emissions, reads of any number of connections, connects and disconnects", "why_tests_cant": "Tests publish a handful of events to one reader; lag depends on the interleaving of a publisher with any number of readers of different speed.", "anchors": [{"file": "crates/net/rpc/src/events.rs", "symbols": ["get_events", "event_stream"]}, {"file": "crates/blockchain/src/events.rs", "symbols": ["EventBus", "Topic", "CHAIN_EVENT_CHANNEL_CAPACITY"]}]}
{"id": "C72", "title": "Validator keys sign every duty and no epoch twice", "statement": "Over the whole life of a node, restarts included, no one-time key of a validator is asked to sign twice for one epoch. Every vote or block of a slot inside the activation interval of the validator's key for it is signed with that key for that slot, however far the node's clock jumps ahead; slots after the interval are refused; preparing a key always ends.", "quantifier": "all message histories, restarts, clock readings, key windows and activation intervals", "why_tests_cant": "Key windows span 65,536 slots each; tests of even one window change take minutes and are ignored by default.", "anchors": [{"file": "crates/blockchain/src/key_manager.rs", "symbols": ["KeyManager", "advance_key", "advance_keys_to", "sign_attestation", "sign_block_root"]}, {"file": "crates/common/crypto/src/signature.rs", "symbols": ["ValidatorSecretKey"]}, {"file": "crates/blockchain/src/lib.rs", "symbols": ["on_tick", "produce_attestations", "propose_block"]}]}
{"id": "C73", "title": "Both storage backends store and list the same", "statement": "After any history of write batches, committed or dropped, a key of a table reads the value the last operation of a committed batch left (a put its value; a delete or a covering half-open range deletion nothing), a prefix lists exactly the entries whose keys start with it, in byte order and each once, in the in-memory backend and in RocksDB alike, and everything read through one view belongs to one state.", "quantifier": "every history of batches of puts, deletes and range deletions over every table, key and prefix; every interleaving of a reader's view with commits", "why_tests_cant": "tests run one fixed script of operations against both backends; the claim covers every history, prefix and interleaving", "anchors": [{"file": "crates/storage/src/backend/in_memory.rs", "symbols": ["get", "prefix_iterator", "put_batch", "delete_batch", "delete_range", "commit"]}, {"file": "crates/storage/src/backend/rocksdb.rs", "symbols": ["get", "prefix_iterator", "put_batch", "delete_batch", "delete_range", "commit"]}, {"file": "crates/storage/src/api/tables.rs", "symbols": ["ALL_TABLES", "Table::name"]}]}
{"id": "C74", "title": "Two thirds of the validators can always finalize something new", "statement": "Whatever the history of a chain, if validators that make up two thirds of the registry keep proposing in their slots and voting, and the others do nothing, the chain can be continued so that a block that was not there before becomes finalized.", "quantifier": "every chain from genesis, every set of two thirds of the validators, every continuation made by that set alone", "why_tests_cant": "an existence claim for every reachable state, and its failure is a claim about every infinite continuation; tests show single runs", "anchors": [{"file": "crates/blockchain/state_transition/src/lib.rs", "symbols": ["slot_is_justifiable_after", "try_finalize", "process_attestations", "current_proposer"]}, {"file": "crates/blockchain/src/lib.rs", "symbols": ["propose_block", "get_our_proposer"]}]}
{"id": "C75", "title": "A configured bootnode is never given up", "statement": "A node that was started with a list of bootnodes keeps trying to reach each of them (other than itself) for as long as it runs: whenever no connection event or dial command is waiting to be handled, every bootnode is connected, is being dialled, or is scheduled to be dialled again within 12 seconds. This holds however connections are opened, duplicated, closed and refused by either side. The peers the node counts as connected are exactly those with at least one open connection, each of them has been sent a status request, and apart from the start the node dials only bootnodes that were found gone at least 12 seconds earlier.", "quantifier": "all bootnode lists, all interleavings of connection events, dial results, timers and commands between the network task and the node's actor", "why_tests_cant": "The race between connection reports waiting in a queue and timers that look at the peer set needs every interleaving; one that drops the last retry isolates the node for ever.", "anchors": [{"file": "crates/net/p2p/src/lib.rs", "symbols": ["handle_swarm_event", "handle_retry_peer_redial", "build_swarm"]}, {"file": "crates/net/p2p/src/swarm_adapter.rs", "symbols": ["swarm_loop", "execute_command"]}]}
{"id": "C76", "title": "Dropping duplicate gossip loses no message", "statement": "Gossip messages that arrive are handed on only if no message with the same identifier was handed on before. For every list of arriving topics and payloads, in every order, each arrived message decodes to what some message handed on for the same topic decodes to, unless two of them are a collision of the (truncated) hash; in particular neither a payload that does not decompress, nor the same bytes sent to another topic, nor a topic name chosen to shift bytes between topic and payload can make a node drop a valid message. Conversely the same content is handed on at most once per topic, in however many ways it was compressed.", "quantifier": "all lists of arriving messages (any topics, any bytes), all behaviours of the decompressor, all hash functions", "why_tests_cant": "The attacker chooses topic, bytes and order; a test tries particular messages, and a missing length or domain separator shows only for crafted ones.", "anchors": [{"file": "crates/net/p2p/src/lib.rs", "symbols": ["compute_message_id"]}, {"file": "crates/net/p2p/src/gossipsub/encoding.rs", "symbols": ["decompress_message"]}, {"file": "crates/net/p2p/src/gossipsub/handler.rs", "symbols": ["handle_gossipsub_message"]}]}
{"id": "C77", "title": "A node starts with exactly the validator keys listed for it", "statement": "Reading the annotated validators file succeeds if and only if every public key in it is 52 bytes of hexadecimal, the node's name is listed, the file name of each of the node's entries contains exactly one of 'attester' and 'proposer', no validator index has two entries of the same role, every index has both roles, and every named file (relative to the key directory unless absolute) holds a key. The result then maps each listed index, and no other, to the key of its attester file for votes and the key of its proposer file for blocks, in whatever order the entries stand.", "quantifier": "all contents of the validators file, all names of files and directories, all contents of the disk, all node names", "why_tests_cant": "A swapped role or an index with a key of another validator signs with the wrong key; tests check a few lists, the statement is about every list, order and file name.", "anchors": [{"file": "bin/ethlambda/src/main.rs", "symbols": ["read_validator_keys", "classify_role", "deser_pubkey_hex", "AnnotatedValidator"]}]}
{"id": "C78", "title": "A dashboard of the event monitor sees every event and never mixes two chains", "statement": "The event monitor stamps every event of the nodes it watches with the exact time since the start of its slot and drops events more than 8 slots in the future. A tab that opens the stream and requests the history receives every event sent since the last change of slot geometry, unless it is outdated (older than the retained slots, more than 50000 events old, more than 2000 events old in its node's topic). It is told of every change of geometry before it gets an event stamped with the new one, and neither history nor stream mix events of two geometries. The history is bounded: 50000 events in all, and a tab is given at most 2000 events per node and topic, in the order in which they were put in.", "quantifier": "every interleaving of the collectors, the refresher and the requests of a tab, every history, every frame", "why_tests_cant": "The property is about the points where the tasks and the requests interleave; the unit tests of the hub run in one task.", "anchors": [{"file": "tooling/event-monitor/src/hub.rs", "symbols": ["publish_chain", "publish_geometry", "history_snapshot", "reset_history", "History"]}, {"file": "tooling/event-monitor/src/timing.rs", "symbols": ["run_refresher", "offset_ms", "slot_at", "validate"]}, {"file": "tooling/event-monitor/src/model.rs", "symbols": ["normalize"]}, {"file": "tooling/event-monitor/src/collector.rs", "symbols": ["connect_and_stream"]}, {"file": "tooling/event-monitor/web/app.js", "symbols": ["boot"]}]}
{"id": "C79", "title": "The fork choice tree in the log shows the node's view of the chain", "statement": "At every slot the node logs its fork choice tree. Writing it never panics, whatever the order in which the hash map is iterated. The tree shows blocks of the live chain with their slots, none twice; every block with fewer than 20 columns left of it below the root is shown; of two branches the heavier stands first, of equally heavy ones the one with the larger root; the head marker stands only at the head, and the head is shown and marked.", "quantifier": "every reachable node, every set of votes, every iteration order of the hash map", "why_tests_cant": "The text depends on the iteration order of a hash map, which a test does not control, and on the shape of the pruned tree.", "anchors": [{"file": "crates/blockchain/src/fork_choice_tree.rs", "symbols": ["format_fork_choice_tree", "find_tree_root", "TreeRenderer"]}, {"file": "crates/blockchain/src/store.rs", "symbols": ["log_fork_choice_tree", "HeadUpdate"]}]}
{"id": "C80", "title": "The coverage gauges count each validator once, by channel and subnet", "statement": "The report on a slot, made when the next slot's attestations are due, never panics. If the head block has no vote of a known validator for the slot, no gauge changes. Otherwise the sections timely, late, block and combined show exactly how many validators voted for that slot in the last snapshot of the new aggregates, in the new aggregates now, in the head block, and in any of them: each validator once however many aggregates contain it, participants that are not in the validator set not at all. The numbers of the subnets add up to the number in all; the difference gauges show who is in the block but was not in the snapshot, and the reverse. The snapshot has what was in the pool at the latest end-of-slot tick that found anything. The sections agg_start_new and proposal_combined do the same for the pool and for a proposed block.", "quantifier": "every reachable node, every snapshot and history of ticks, every committee count, every bit list of every length", "why_tests_cant": "Overlapping aggregates, bit lists longer than the validator set and the choice of snapshot over a history make the space of inputs unbounded.", "anchors": [{"file": "crates/blockchain/src/coverage.rs", "symbols": ["cov_add", "cov_record", "emit_post_block_coverage", "emit_agg_start_new_coverage", "emit_proposal_coverage", "snapshot_new_payloads"]}, {"file": "crates/storage/src/store.rs", "symbols": ["new_aggregated_payload_participants"]}, {"file": "crates/blockchain/src/lib.rs", "symbols": ["on_tick"]}]}
{"id": "C81", "title": "An accepted aggregate proof means that every listed key signed exactly that message and slot", "statement": "If verification of an aggregated signature succeeds for a list of public keys, a message and a slot, every listed key signed that message for that slot; if verification of a block's merged proof succeeds, there is one list of keys per expected (message, slot) and the keys of each list signed the pair at its position. Conversely, whatever aggregation of signatures and proofs returns is accepted for exactly the keys that went in, and valid inputs fail only for a proof larger than 512 KiB; accepted proofs can be merged into a block proof that is accepted with the same keys and bindings in order; from an accepted block proof the component of a message can be split off if and only if exactly one component has that message, and the result is accepted for that component's keys and slot.", "quantifier": "every library that is sound and complete, every proof, key list, message, slot, number of components and of children", "why_tests_cant": "Proving is so slow that the repository's tests of it are ignored by default; they use two or three keys and one order, and no test can range over forged or reused proofs.", "anchors": [{"file": "crates/common/crypto/src/lib.rs", "symbols": ["verify_aggregated_signature", "verify_type_2_signature", "aggregate_signatures", "aggregate_mixed", "aggregate_proofs", "merge_type_1s_into_type_2", "split_type_2_by_message"]}]}
{"id": "C82", "title": "Requests answered while the node imports blocks are consistent", "statement": "While a request of a peer or an HTTP client is being answered, the node may commit any number of changes between two of the request's reads. Still: no request crashes or finds a missing head, header or state; a status message names a block that was head with its right slot, and its finalized checkpoint is not above it; a sync report does not show a finalized slot above its head slot; a header asked for by slot belongs to the chain of the head at the beginning of the request; a fork choice report contains each live block of its first read once, with right slot, parent, proposer and votes, and contains the head it names; a block handed out has the root it was asked by; the blocks of a range answer ascend in the range, lie on one chain, and include every block of it that is stored completely.", "quantifier": "every anchor, history of events and commits of a node, every interleaving of the reads of one request with the commits, every range, slot, root and vote table", "why_tests_cant": "Which commits fall between two reads is decided by the scheduler; the tests use the in-memory backend, whose view holds a lock, and issue requests on a store nobody writes to.", "anchors": [{"file": "crates/storage/src/store.rs", "symbols": ["get_signed_blocks_by_slot_range", "get_signed_block", "update_checkpoints", "head_state", "head_slot"]}, {"file": "crates/storage/src/backend/rocksdb.rs", "symbols": ["begin_read"]}, {"file": "crates/net/p2p/src/req_resp/handlers.rs", "symbols": ["build_status", "handle_blocks_by_range_request"]}, {"file": "crates/net/rpc/src/node.rs", "symbols": ["get_syncing"]}, {"file": "crates/net/rpc/src/fork_choice.rs", "symbols": ["get_fork_choice"]}, {"file": "crates/net/rpc/src/blocks.rs", "symbols": ["get_block_header"]}]}
{"id": "C83", "title": "Nodes that know the same agree", "statement": "Two nodes that have imported the same blocks since their justified checkpoint and hold the same latest vote of every validator have the same head after the next update, and if they started from the same state the same canonical chain and finalized checkpoint; with the same safe target they cast the same vote. In particular the order in which blocks arrive, repetitions and rejected attempts do not matter: whatever the order, once the same blocks are imported the nodes have the same states, latest votes, head, canonical chain and checkpoints, unless two imported chains prove that a third of the validators broke the voting rules.", "quantifier": "all pairs of reachable nodes (any two histories of blocks, votes, ticks, proposals, restarts), all anchors, all lists of blocks offered in any two orders with repetitions and invalid blocks", "why_tests_cant": "two nodes never have the same history; a test compares a few arrival orders, while agreement must hold for all of them, and the exception needs a coalition of validators", "anchors": [{"file": "crates/blockchain/src/store.rs", "symbols": ["update_head", "on_block", "accept_new_attestations", "update_safe_target", "produce_attestation_data", "get_attestation_target"]}, {"file": "crates/blockchain/fork_choice/src/lib.rs", "symbols": ["compute_lmd_ghost_head"]}, {"file": "crates/storage/src/store.rs", "symbols": ["update_checkpoints", "get_live_chain"]}]}
{"id": "C84", "title": "The aggregator role can be switched at run time and changes nothing but aggregation", "statement": "The admin endpoint always reports the role last asked for (or the command line's); a JSON object with a boolean field 'enabled' sets it and returns the role it replaced; any other body is an error and changes nothing. Without the role the node starts no aggregation session, collects no signature and publishes no aggregate except one that a worker already running delivers; a node booted without the role and never asked for it publishes none at all. With the role the tick of the aggregation interval starts the session of its slot if there is anything to aggregate. Two nodes that see the same messages (apart from their own workers' results) import, store, vote, propose, fetch and report the same, whatever their roles and however these are switched.", "quantifier": "all interleavings of status requests, toggles with any body and messages to the node; all node states; for the last part all pairs of histories with the same messages", "why_tests_cant": "a test toggles once and looks at one session; that aggregation never influences import, votes, proposals or events is a statement about pairs of histories, and a toggle may fall between any two messages", "anchors": [{"file": "crates/net/rpc/src/admin.rs", "symbols": ["get_aggregator", "post_aggregator"]}, {"file": "crates/common/types/src/aggregator.rs", "symbols": ["AggregatorController", "set_enabled", "is_enabled"]}, {"file": "crates/blockchain/src/lib.rs", "symbols": ["on_tick", "maybe_start_early_aggregation", "produce_attestations", "process_or_pend_block", "start_aggregation_session"]}, {"file": "crates/blockchain/src/store.rs", "symbols": ["on_gossip_attestation"]}, {"file": "bin/ethlambda/src/main.rs", "symbols": ["main"]}]}
{"id": "C85", "title": "A node that lacks blocks gets exactly the missing ones from a peer and imports them all", "statement": "When a node hears of a block whose ancestors it lacks, and a peer can hand out that block's chain down to a block the node has, the node asks for the missing ancestors one after another, each exactly once and nothing else; after as many deliveries as there are blocks it asks for nothing more, every block of the chain is imported with the state it leads to, and nothing is left waiting.", "quantifier": "all nodes in any reachable state with nothing waiting, all valid chains of any length that are new to the node and above everything it has finalized, all peers that store the chain, all outside events during the exchange", "why_tests_cant": "a test syncs a chain of a few blocks; that no request is missing, repeated or superfluous for every length, and that the whole chain is imported when its first block arrives, is an induction over the exchange of two nodes", "anchors": [{"file": "crates/blockchain/src/lib.rs", "symbols": ["process_or_pend_block", "on_block", "collect_pending_children"]}, {"file": "crates/net/p2p/src/req_resp/handlers.rs", "symbols": ["handle_blocks_by_root_request", "fetch_block_from_peer"]}, {"file": "crates/storage/src/store.rs", "symbols": ["insert_pending_block", "get_signed_block"]}]}
{"id": "C86", "title": "The event monitor retries at bounded intervals and announces the true state of every node", "statement": "After every attempt to follow a node's events the monitor waits 250 ms, doubled for each further attempt since the last one that lasted for a heartbeat, at most ten seconds. The announced status of a node is connected exactly while its stream is open, down from the sixth failed attempt after a good one (the seventh of a node that never worked) and reconnecting otherwise; a state is not announced again unless it changed, except that every heartbeat carries the exact event rate. A node that never works is announced as reconnecting once and down once and stays so. The history shows for each configured node the last status announced for it, whatever the interleaving of the nodes.", "quantifier": "every sequence of refusals, connections, frames, heartbeats, ends and sleeps of each node, every interleaving of the nodes' tasks, every list of nodes", "why_tests_cant": "the unit tests take a few attempts of one collector; the delay, the status and the absence of repetitions concern every history of attempts, and the shared status map every interleaving", "anchors": [{"file": "tooling/event-monitor/src/collector.rs", "symbols": ["run_collector", "connect_and_stream", "Backoff", "StatusPublisher", "RateTracker"]}, {"file": "tooling/event-monitor/src/hub.rs", "symbols": ["publish_status", "record_status"]}, {"file": "tooling/event-monitor/src/config.rs", "symbols": ["validate"]}]}
{"id": "C87", "title": "The event monitor subscribes to what is configured and changes the slot geometry only when the chain does", "statement": "The monitor asks every node for exactly the configured topics, however many slashes the configured URL ends with, and a configuration that passes validation never leads to a subscription the nodes refuse. The slot geometry is what the configuration gives and, for the rest, the answer of the first node that answers both requests; implausible values are never taken, and without any source the monitor does not start. As long as no node changes its geometry, nodes going away and coming back neither change it nor drop the history.", "quantifier": "every URL and list of topics, every configuration, every combination of nodes that answer or do not answer at the start and at every refresh", "why_tests_cant": "the tests use one node that answers; which nodes answer at which refresh is a matter of history", "anchors": [{"file": "tooling/event-monitor/src/config.rs", "symbols": ["endpoint", "validate"]}, {"file": "tooling/event-monitor/src/collector.rs", "symbols": ["connect_and_stream"]}, {"file": "tooling/event-monitor/src/timing.rs", "symbols": ["bootstrap", "fetch_from_first_reachable", "run_refresher", "validate"]}, {"file": "crates/net/rpc/src/events.rs", "symbols": ["get_events"]}]}
{"id": "C88", "title": "Roots and keys as text are read exactly and back", "statement": "A text is accepted as a block root exactly when it consists of the 64 hexadecimal digits of the root, in letters of either case, with or without 0x. Every root the node writes is read back as the same root, by JSON readers and as a block id of the HTTP interface. Two accepted texts mean the same root only if they differ in case and prefix alone. A genesis file is accepted exactly when every public key in it is written by the digits of 52 bytes, and then means the validators with these keys in the order of the file. A key written as the genesis file accepts it is also accepted in the validator file.", "quantifier": "every text and every root, every list of pairs of key texts", "why_tests_cant": "the tests read a handful of texts; acceptance and ambiguity are about all of them", "anchors": [{"file": "crates/common/types/src/primitives.rs", "symbols": ["H256::deserialize", "H256::serialize", "LowerHex", "Display"]}, {"file": "crates/common/types/src/genesis.rs", "symbols": ["deser_pubkey_hex", "GenesisConfig"]}, {"file": "bin/ethlambda/src/main.rs", "symbols": ["deser_pubkey_hex"]}, {"file": "crates/net/rpc/src/blocks.rs", "symbols": ["resolve_block_id"]}]}
{"id": "C89", "title": "64 bits are enough", "statement": "On a chain from genesis no block, whatever numbers it contains, makes an arithmetic operation of the state transition overflow: the outcome is the one of exact arithmetic. With a genesis time below 2^64/1000 seconds the same holds of the clock, of the start of every slot that has begun, and of the checks that reject votes and blocks from the future: a slot near 2^64 is never taken for one that has begun.", "quantifier": "every chain from genesis, every block and vote with 64-bit fields, every moment", "why_tests_cant": "an overflow shows only for extreme values and in builds with overflow checks; the release build wraps silently", "anchors": [{"file": "crates/blockchain/state_transition/src/lib.rs", "symbols": ["state_transition", "process_block_header", "process_attestations", "try_finalize", "serialize_justifications"]}, {"file": "crates/blockchain/state_transition/src/justified_slots_ops.rs", "symbols": ["extend_to_slot"]}, {"file": "crates/blockchain/src/store.rs", "symbols": ["on_tick", "validate_attestation_data", "on_block_core", "get_proposal_head"]}, {"file": "crates/blockchain/src/lib.rs", "symbols": ["on_tick", "process_or_pend_block"]}]}
{"id": "C90", "title": "Settings mean what was written", "statement": "A checkpoint peer may be named by its base URL or by the URL of its finalized state, with any number of slashes at the end: the node requests the state and the block at this peer. Peers are tried in the order given, without the blanks around their URLs, and blank ones do not count. The number of committees is that of the command line, else that of the file, else one, and a node never runs with none, so that choosing subnets never divides by zero. A start with discovery is refused exactly when both UDP sockets would have the same port. The file with the node's key may have blanks around the digits, 0x before them, and letters of either case.", "quantifier": "every URL, list of URLs, pair of settings, pair of ports and file", "why_tests_cant": "the texts are unbounded; tests try a few spellings", "anchors": [{"file": "bin/ethlambda/src/checkpoint_sync.rs", "symbols": ["normalize_base_url", "fetch_finalized_state", "fetch_finalized_block"]}, {"file": "bin/ethlambda/src/main.rs", "symbols": ["main", "read_hex_file_bytes"]}, {"file": "bin/ethlambda/src/cli.rs", "symbols": ["validate_discovery"]}]}
{"id": "C91", "title": "The page of the event monitor shows true delays and takes in every event once", "statement": "At its start the page takes in exactly the events of the history and of the stream, each once. For each recent block or aggregate and each configured node that has it, the propagation panel shows the time from the first arrival at any node to the first arrival at this one, coloured as first, behind, or more than a slot behind; the order of the events does not matter. Never more than 400 blocks or aggregates are shown.", "quantifier": "every sequence of events, clean-ups and changes of the window, and every interleaving of stream and history", "why_tests_cant": "the order in which the reports of several nodes arrive, and the moments of clean-up, are unbounded; the page has no tests", "anchors": [{"file": "tooling/event-monitor/web/app.js", "symbols": ["boot", "eventKey"]}, {"file": "tooling/event-monitor/web/propagation.js", "symbols": ["addEvent", "prune", "draw", "setWindowSlots"]}]}
{"id": "C92", "title": "The panel of arrival times shows every recent event", "statement": "In the lane of each configured node the page of the event monitor shows a dot for every recent block, vote and aggregate of this node, in the order of arrival, at its time within the slot, cut to two slots, and outlined if it came before its slot. Periodic clean-ups cannot be noticed.", "quantifier": "every sequence of events, clean-ups and changes of the window", "why_tests_cant": "lanes are cleaned up while events arrive out of slot order; the page has no tests", "anchors": [{"file": "tooling/event-monitor/web/beeswarm.js", "symbols": ["addEvent", "prune", "draw", "setWindowSlots"]}]}
{"id": "C93", "title": "An aggregate has one identifier, whoever reports it", "statement": "The event monitor gives two reports of aggregates the same identifier exactly if they are about the same vote (slot, head, target and source) and the same participants, in whatever order the nodes list these.", "quantifier": "all votes and lists of participants", "why_tests_cant": "the identifier is a hash of a text; tests compare a few inputs and cannot show that no two different aggregates share a text or a hash", "anchors": [{"file": "tooling/event-monitor/src/model.rs", "symbols": ["aggregate_id", "fnv1a_64", "AggregateIdInput"]}]}
{"id": "C94", "title": "Requests and responses arrive as they were sent", "statement": "Every request a node sends over a stream is received as it was sent, every answer (a status, blocks, or a refusal with a code and a text) likewise. Whatever bytes a peer sends, what is accepted is a request for the protocol of the stream within the limits (at most 1024 roots), a status, or a refusal with at most 256 bytes of text; a request has only one payload.", "quantifier": "all requests, responses and byte streams", "why_tests_cant": "the reader faces arbitrary bytes from peers; tests try a few messages", "anchors": [{"file": "crates/net/p2p/src/req_resp/codec.rs", "symbols": ["Codec::read_request", "Codec::write_request", "Codec::read_response", "Codec::write_response", "decode_status_response"]}, {"file": "crates/net/p2p/src/req_resp/messages.rs", "symbols": ["Request", "Response", "error_message"]}]}
