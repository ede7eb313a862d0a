{
 "claims": [
  {
   "property": "C01",
   "status": "proved",
   "theorems": [
    "C01_proposer_schedule",
    "C01_only_proposer_accepted"
   ],
   "note": ""
  },
  {
   "property": "C02",
   "status": "proved",
   "theorems": [
    "C02_block_linkage"
   ],
   "note": ""
  },
  {
   "property": "C03",
   "status": "proved",
   "theorems": [
    "C03_history",
    "C03_append_only"
   ],
   "note": ""
  },
  {
   "property": "C04",
   "status": "proved",
   "theorems": [
    "C04_monotone",
    "C04_ordered"
   ],
   "note": ""
  },
  {
   "property": "C05",
   "status": "proved",
   "theorems": [
    "C05_checkpoints_on_chain"
   ],
   "note": ""
  },
  {
   "property": "C06",
   "status": "proved",
   "theorems": [
    "C06_justified_has_supermajority",
    "C06_justified_exact_target"
   ],
   "note": "The second theorem (votes name exactly the justified checkpoint) assumes the blocks of the chain have pairwise distinct roots, i.e. no hash collision on the chain."
  },
  {
   "property": "C07",
   "status": "proved",
   "theorems": [
    "C07_attestation_effect",
    "C07_one_by_one"
   ],
   "note": ""
  },
  {
   "property": "C08",
   "status": "proved",
   "theorems": [
    "C08_finalization"
   ],
   "note": ""
  },
  {
   "property": "C09",
   "status": "partial",
   "theorems": [
    "C09_justifiable_exact_partial",
    "C09_justifiable_refuted",
    "C09_justifiable_large"
   ],
   "note": "Exact for every distance below 2^62; the full u64 statement is false (checked_mul overflow makes pronic distances >= 2^62 unjustifiable)."
  },
  {
   "property": "C10",
   "status": "proved",
   "theorems": [
    "C10_shift_preserves",
    "C10_extend",
    "C10_set",
    "C10_query",
    "C10_total"
   ],
   "note": ""
  },
  {
   "property": "C11",
   "status": "proved",
   "theorems": [
    "C11_bookkeeping",
    "C11_same_tallies_same_encoding",
    "C11_no_structural_rejection"
   ],
   "note": ""
  },
  {
   "property": "C12",
   "status": "proved",
   "theorems": [
    "C12_no_panic"
   ],
   "note": "For registries within the 4096 limit of the SSZ type."
  },
  {
   "property": "C13",
   "status": "proved",
   "theorems": [
    "C13_ignored",
    "C13_rejected",
    "C13_range"
   ],
   "note": ""
  },
  {
   "property": "C14",
   "status": "partial",
   "theorems": [
    "C14_finalization_same_source_refuted"
   ],
   "note": "The property is false of the code: counterexample chain. A finalized source may have fewer than two thirds of same-source votes."
  },
  {
   "property": "C15",
   "status": "proved",
   "theorems": [
    "C15_order_independent"
   ],
   "note": ""
  },
  {
   "property": "C16",
   "status": "proved",
   "theorems": [
    "C16_weight_is_subtree_votes",
    "C16_no_weight_below",
    "C16_weights_terminate"
   ],
   "note": "Under the tree invariant that parents have smaller slots (shown for every reachable store in C29)."
  },
  {
   "property": "C17",
   "status": "proved",
   "theorems": [
    "C17_greedy_head",
    "C17_unknown_start",
    "C17_zero_start"
   ],
   "note": "Under the tree invariant (C29)."
  },
  {
   "property": "C18",
   "status": "proved",
   "theorems": [
    "C18_safe_target"
   ],
   "note": "Under the tree invariant (C29)."
  },
  {
   "property": "C19",
   "status": "proved",
   "theorems": [
    "C19_newest_vote",
    "C19_order_independent",
    "C19_imported"
   ],
   "note": "Order independence assumes the data root is collision free; without it each recorded vote is still a newest one."
  },
  {
   "property": "C20",
   "status": "proved",
   "theorems": [
    "C20_keys_decode",
    "C20_keys_order",
    "C20_bare_key"
   ],
   "note": ""
  },
  {
   "property": "C21",
   "status": "proved",
   "theorems": [
    "C21_index_exact",
    "C21_initial",
    "C21_range"
   ],
   "note": "Head changes among stored blocks whose parent links decrease in slot; the node-level theorem that every head change satisfies this is part of C29."
  },
  {
   "property": "C22",
   "status": "proved",
   "theorems": [
    "C22_read_back",
    "C22_insert_never_fails"
   ],
   "note": "Header hash injective (collision resistance) and anchor state slot equal to its header's slot are hypotheses."
  },
  {
   "property": "C23",
   "status": "proved",
   "theorems": [
    "C23_read_back",
    "C23_only_written"
   ],
   "note": "Header and body hashes injective (collision resistance)."
  },
  {
   "property": "C24",
   "status": "proved",
   "theorems": [
    "C24_prune_proofs",
    "C24_recent_kept",
    "C24_prune_live",
    "C24_prune_when"
   ],
   "note": ""
  },
  {
   "property": "C25",
   "status": "proved",
   "theorems": [
    "C25_runs",
    "C25_bounded",
    "C25_covered",
    "C25_push",
    "C25_drain_prune"
   ],
   "note": ""
  },
  {
   "property": "C26",
   "status": "proved",
   "theorems": [
    "C26_runs",
    "C26_bounded",
    "C26_insert",
    "C26_delete_prune"
   ],
   "note": ""
  },
  {
   "property": "C27",
   "status": "proved",
   "theorems": [
    "C27_accepts_iff",
    "C27_never_panics",
    "C27_anchor_store"
   ],
   "note": ""
  },
  {
   "property": "C28",
   "status": "partial",
   "theorems": [
    "C28_crash_safe_partial",
    "C28_refuted",
    "C28_redelivery"
   ],
   "note": "False of the code for the crash point between the commit of a block and the commit of its state: the restarted node can select a head without a state and then panics (C28_refuted). Proved for all other crash points; redelivery of the block repairs the database."
  },
  {
   "property": "C29",
   "status": "proved",
   "theorems": [
    "C29_invariant",
    "C29_no_panic"
   ],
   "note": "Block-header hash collision free and never zero; registry within 4096. No-panic additionally assumes hashes cannot form a parent cycle and the clock fits 32-bit slots."
  },
  {
   "property": "C30",
   "status": "partial",
   "theorems": [
    "C30_along_chain_partial",
    "C30_refuted"
   ],
   "note": "False of the code: a head switch to a fork whose state has an older finalized checkpoint lowers the finalized slot (C30_refuted). Proved while the head stays on the earlier head's chain."
  },
  {
   "property": "C31",
   "status": "proved",
   "theorems": [
    "C31_known",
    "C31_rejected",
    "C31_accepted"
   ],
   "note": "Hash collision freedom as hypothesis for acceptance."
  },
  {
   "property": "C32",
   "status": "proved",
   "theorems": [
    "C32_imported",
    "C32_complete"
   ],
   "note": "The node store's gate is one slot ahead of the clock; signature verification is an oracle."
  },
  {
   "property": "C33",
   "status": "proved",
   "theorems": [
    "C33_validation_iff",
    "C33_reaches_ancestry",
    "C33_gossip_signature",
    "C33_gossip_aggregate"
   ],
   "note": "Ancestry is through stored blocks above the checkpoint's slot; equals ancestry where slots decrease along parent links."
  },
  {
   "property": "C34",
   "status": "partial",
   "theorems": [
    "C34_target",
    "C34_produced",
    "C34_valid_partial",
    "C34_refuted"
   ],
   "note": "Target clauses proved for every anchor. That the produced vote passes validation is proved for nodes started from genesis and false for nodes started from a checkpoint whose justified block is older (C34_refuted)."
  },
  {
   "property": "C35",
   "status": "proved",
   "theorems": [
    "C35_tick_duties",
    "C35_clock",
    "C35_past",
    "C35_accept",
    "C35_safe"
   ],
   "note": ""
  },
  {
   "property": "C36",
   "status": "proved",
   "theorems": [
    "C36_reorg_depth"
   ],
   "note": ""
  },
  {
   "property": "C37",
   "status": "proved",
   "theorems": [
    "C37_shape",
    "C37_importable",
    "C37_order",
    "C37_own"
   ],
   "note": "Success needs a prover that does its job (complete_prover, can_sign) and own aggregates that verify, which C37_own derives from sound provers; slots up to 2^18."
  },
  {
   "property": "C38",
   "status": "proved",
   "theorems": [
    "C38_greedy",
    "C38_union",
    "C38_children"
   ],
   "note": ""
  },
  {
   "property": "C39",
   "status": "proved",
   "theorems": [
    "C39_job",
    "C39_output",
    "C39_snapshot",
    "C39_own"
   ],
   "note": "The provers are oracles; C39_own assumes they are sound."
  },
  {
   "property": "C40",
   "status": "proved",
   "theorems": [
    "C40_update",
    "C40_no_flapping",
    "C40_status",
    "C40_gate"
   ],
   "note": ""
  },
  {
   "property": "C41",
   "status": "proved",
   "theorems": [
    "C41_once",
    "C41_all"
   ],
   "note": "Needs an acyclic, injective block hash. Without the unaltered-copies condition it is false: C61_refuted."
  },
  {
   "property": "C42",
   "status": "proved",
   "theorems": [
    "C42_maps",
    "C42_discard",
    "C42_terminates",
    "C42_fetch",
    "C42_asks",
    "C42_only_blocks"
   ],
   "note": "A discarded block that was itself waiting for a parent stays registered there."
  },
  {
   "property": "C43",
   "status": "proved",
   "theorems": [
    "C43_wait",
    "C43_schedule"
   ],
   "note": ""
  },
  {
   "property": "C44",
   "status": "proved",
   "theorems": [
    "C44_varint_roundtrip",
    "C44_varint_prefix_free"
   ],
   "note": ""
  },
  {
   "property": "C45",
   "status": "partial",
   "theorems": [
    "C45_varint_canonical_refuted",
    "C45_varint_canonical_partial"
   ],
   "note": "False of the code: padded and overflowing prefixes are accepted. Proved for prefixes without superfluous bytes."
  },
  {
   "property": "C46",
   "status": "proved",
   "theorems": [
    "C46_frame_exact",
    "C46_bounded",
    "C46_total",
    "C46_roundtrip"
   ],
   "note": "The raw snappy codec, checksum and snap frame reader are parameters or modelled from the format description."
  },
  {
   "property": "C47",
   "status": "partial",
   "theorems": [
    "C47_delivers",
    "C47_single",
    "C47_batch",
    "C47_target",
    "C47_raise",
    "C47_next",
    "C47_tiles",
    "C47_dropped",
    "C47_linger_refuted",
    "C47_stall"
   ],
   "note": "All clauses proved except that the sync always ends when no peer is left: C47_linger_refuted shows a reachable state that syncs with no peer and no request."
  },
  {
   "property": "C48",
   "status": "partial",
   "theorems": [
    "C48_attempts",
    "C48_failure",
    "C48_avoid",
    "C48_success",
    "C48_quiet",
    "C48_one",
    "C48_one_retry",
    "C48_leak_refuted"
   ],
   "note": "Bounds, delays, choice of peers and the end of a fetch proved. False: after an empty answer the request number stays in the table of outstanding requests (C48_leak_refuted)."
  },
  {
   "property": "C49",
   "status": "partial",
   "theorems": [
    "C49_retry_partial",
    "C49_fetch",
    "C49_mismatch",
    "C49_stuck",
    "C49_refuted"
   ],
   "note": "False (C49_refuted): a nonempty answer without the block leaves it marked as being fetched for good. Proved for all other answers and failures."
  },
  {
   "property": "C50",
   "status": "proved",
   "theorems": [
    "C50_accepts_iff",
    "C50_total",
    "C50_honest"
   ],
   "note": "SSZ decoding of the downloaded bytes is not modelled: the model starts from the decoded state."
  },
  {
   "property": "C51",
   "status": "proved",
   "theorems": [
    "C51_resume",
    "C51_foreign",
    "C51_missing",
    "C51_genesis",
    "C51_checkpoint",
    "C51_none",
    "C51_urls"
   ],
   "note": "HTTP is an oracle giving any answer to any attempt; process exit on error is an Err value with the disk it leaves behind."
  },
  {
   "property": "C52",
   "status": "proved",
   "theorems": [
    "C52_topics",
    "C52_diff",
    "C52_heard"
   ],
   "note": ""
  },
  {
   "property": "C53",
   "status": "proved",
   "theorems": [
    "C53_choice",
    "C53_recovered",
    "C53_all"
   ],
   "note": ""
  },
  {
   "property": "C54",
   "status": "proved",
   "theorems": [
    "C54_subnets",
    "C54_published",
    "C54_heard",
    "C54_topics",
    "C54_expected"
   ],
   "note": "Committee count at least one, as bin/ethlambda/src/main.rs:168-177 ensures; topics are strings."
  },
  {
   "property": "C55",
   "status": "proved",
   "theorems": [
    "C55_expected",
    "C55_start",
    "C55_once",
    "C55_size",
    "C55_held"
   ],
   "note": "At most once per slot while the wall clock does not go back."
  },
  {
   "property": "C56",
   "status": "proved",
   "theorems": [
    "C56_current",
    "C56_stale"
   ],
   "note": "The second clause while the wall clock does not go back (session ids are slots)."
  },
  {
   "property": "C57",
   "status": "proved",
   "theorems": [
    "C57_blocks_roundtrip",
    "C57_error_chunks_skipped"
   ],
   "note": ""
  },
  {
   "property": "C58",
   "status": "partial",
   "theorems": [
    "C58_response_bound_refuted"
   ],
   "note": "False of the code: a response may carry any number of blocks."
  },
  {
   "property": "C59",
   "status": "proved",
   "theorems": [
    "C59_subset_exact"
   ],
   "note": ""
  },
  {
   "property": "C60",
   "status": "partial",
   "theorems": [
    "C60_no_panic_partial",
    "C60_refuted"
   ],
   "note": "False (C60_refuted): a block whose parent is an old rejected block with a pruned proof makes the actor panic. Proved: this is the only cause."
  },
  {
   "property": "C61",
   "status": "partial",
   "theorems": [
    "C41_all",
    "C61_refuted"
   ],
   "note": "False (C61_refuted): a pending copy with an invalid proof overwrites the stored proof. Proved when no altered copy is delivered (C41_all)."
  },
  {
   "property": "C62",
   "status": "partial",
   "theorems": [
    "C62_counts_partial",
    "C62_best_partial",
    "C62_full_partial",
    "C62_one_proof",
    "C62_refuted"
   ],
   "note": "Holds with aggregation at the proposer. Without it (one proof per data) it is false: the selection still plans with all the proofs, so votes are packed whose source the block does not justify (C62_refuted); C62_one_proof says which proof is kept."
  },
  {
   "property": "C63",
   "status": "proved",
   "theorems": [
    "C63_pair",
    "C63_served",
    "C63_join"
   ],
   "note": "C63_served needs the finalized slot never to have been higher before (it can go back: C30_refuted) and a start with the anchor block or a finalization since."
  },
  {
   "property": "C64",
   "status": "partial",
   "theorems": [
    "C64_range",
    "C64_refused",
    "C64_roots",
    "C64_available",
    "C64_refuted",
    "C21_range",
    "C23_read_back"
   ],
   "note": "Proved for nodes started on a new database or resumed from their own. False after a checkpoint start over an own stale database: the old slot index is kept (C64_refuted)."
  },
  {
   "property": "C65",
   "status": "proved",
   "theorems": [
    "C65_votes",
    "C65_blocks",
    "C65_vote_once",
    "C65_block_once"
   ],
   "note": "Restarts happen between messages; a checkpoint start over the node's own stale database resets the clock and starts a new life. C65_blocks assumes that block building returns a block of the slot asked for (C37)."
  },
  {
   "property": "C66",
   "status": "proved",
   "theorems": [
    "C66_votes",
    "C66_block"
   ],
   "note": "Signing and block building are oracles of the world; C34 says what the vote contains, C37 what the block does."
  },
  {
   "property": "C67",
   "status": "partial",
   "theorems": [
    "C67_by_root",
    "C67_header_by_root",
    "C67_by_slot_partial",
    "C67_header_by_slot_partial",
    "C67_malformed",
    "C67_refuted",
    "C67_status",
    "C67_genesis",
    "C67_fork_choice"
   ],
   "note": "False for the slot of the head itself, which is answered 404 (C67_refuted): the head's state remembers only its ancestors' roots. Proved for every other slot and everything else. Block ids are modelled as strings; JSON and SSZ encodings are not."
  },
  {
   "property": "C68",
   "status": "proved",
   "theorems": [
    "C68_roundtrip",
    "C68_kind",
    "C68_bounded"
   ],
   "note": "Raw snappy and the SSZ codecs are parameters assumed to invert each other; the gossipsub protocol is not modelled."
  },
  {
   "property": "C69",
   "status": "partial",
   "theorems": [
    "C69_overlap",
    "C69_same_slot",
    "C69_first_finalization_partial",
    "C69_two_finalizations_partial",
    "C69_refuted"
   ],
   "note": "False in general (C69_refuted): which slots may be justified depends on what each chain has finalized already, so two chains can finalize conflicting blocks without any offence. Proved: two justified blocks of one slot (C69_same_slot), and the first finalizations after a common part when the votes for a target have one source. Header hash injective."
  },
  {
   "property": "C70",
   "status": "partial",
   "theorems": [
    "C70_along_chain_partial",
    "C70_refuted",
    "C70_double_refuted"
   ],
   "note": "False: after a switch to a fork a vote surrounds an earlier one (C70_refuted); without a switch one target gets votes from two sources (C70_double_refuted). Proved: no later vote surrounds an earlier one while the head stays on its chain."
  },
  {
   "property": "C71",
   "status": "proved",
   "theorems": [
    "C71_query",
    "C71_stream",
    "C71_complete",
    "C71_dropped",
    "C71_keeps_up",
    "C71_end",
    "C71_independent"
   ],
   "note": "The broadcast channel is modelled from tokio's documentation; JSON encoding is a parameter."
  },
  {
   "property": "C72",
   "status": "partial",
   "theorems": [
    "C72_window",
    "C72_once",
    "C72_signs_partial",
    "C72_prepared_partial",
    "C72_wraps_refuted",
    "C72_votes_partial",
    "C72_refuted"
   ],
   "note": "False for a key whose slots start after the node: one tick before them sends the window to the end of the activation interval, and the key refuses its slots until a restart (C72_refuted). Proved when no tick is handled before the loaded window. Once per epoch holds without that; slots below 2^32. The key's window is modelled from the documentation in signature.rs."
  },
  {
   "property": "C73",
   "status": "partial",
   "theorems": [
    "C73_memory",
    "C73_rocks",
    "C73_same",
    "C73_view_partial",
    "C73_refuted",
    "C73_range_refuted"
   ],
   "note": "False in two places: a RocksDB view is not a snapshot, so a commit between two reads of one view shows (C73_refuted); a range whose end comes before its start is nothing in memory and an error in RocksDB (C73_range_refuted; the node deletes no ranges). Proved: what each backend stores and lists after every history, that they agree when ranges are in order, and that a view in memory sees one state. RocksDB itself is modelled from its documentation."
  },
  {
   "property": "C74",
   "status": "partial",
   "theorems": [
    "C74_votes_partial",
    "C74_alone_partial",
    "C74_stuck",
    "C74_refuted"
   ],
   "note": "False when some of the missing third are proposers of the wrong slots: finalization needs two blocks at neighbouring justifiable distances, one of which is a square beyond distance 5, and squares fall on few proposers. With 16 validators, 4 missing and slots 1-5 missed the other 12 can never finalize (C74_refuted; C74_stuck for any registry). Proved: votes of any two thirds suffice when every proposer is there, in three blocks (C74_votes_partial), and the two thirds manage alone when the proposers of two neighbouring justifiable slots are among them (C74_alone_partial)."
  },
  {
   "property": "C75",
   "status": "proved",
   "theorems": [
    "C75_bootnodes",
    "C75_any_time",
    "C75_connected",
    "C75_status",
    "C75_delay",
    "C75_not_spaced"
   ],
   "note": "libp2p's swarm is modelled from its documentation (see Peers.v). C75_not_spaced records that redials of one bootnode are not spaced from each other."
  },
  {
   "property": "C76",
   "status": "proved",
   "theorems": [
    "C76_nothing_lost",
    "C76_once",
    "C76_identifies"
   ],
   "note": "SHA-256 truncated to 20 bytes, raw snappy and the SSZ codecs are parameters. gossipsub's duplicate cache is external and modelled without expiry."
  },
  {
   "property": "C77",
   "status": "proved",
   "theorems": [
    "C77_loads",
    "C77_shared_refuted",
    "C77_pubkeys_unchecked"
   ],
   "note": "The YAML parser, the file system and the secret key codec are parameters. Not part of the statement, recorded: two validators may share a key file (C77_shared_refuted) and the listed public keys are not compared with the files (C77_pubkeys_unchecked)."
  },
  {
   "property": "C78",
   "status": "partial",
   "theorems": [
    "C78_stamp",
    "C78_backfill_partial",
    "C78_bounded",
    "C78_announced",
    "C78_told_partial",
    "C78_order_refuted",
    "C78_told_refuted",
    "C78_mixed_refuted"
   ],
   "note": "The full statement is false: the page does not wait for the stream to be open before it requests the history, so an event in between is lost (C78_order_refuted); it reads the geometry before it opens the stream, so a change in between is never announced to it (C78_told_refuted); the history is reset before the geometry is switched, so events of the old chain can enter it afterwards (C78_mixed_refuted). Proved: stamps are exact and only implausible events are dropped; nothing is lost when the subscription is served first; geometry is announced before its first event. Not modelled: HTTP, JSON, node status, a subscriber lagging 4096 messages (the page's de-duplication is C91)."
  },
  {
   "property": "C79",
   "status": "partial",
   "theorems": [
    "C79_tree_partial",
    "C79_root_refuted",
    "C79_depth_refuted"
   ],
   "note": "The full statement is false: of two blocks at the finalized slot either may be taken for the root, and then the head is not shown (C79_root_refuted); a head 20 columns right of the root is cut off (C79_depth_refuted). Everything else is proved, and the head is marked when it is below the chosen root and left of the limit."
  },
  {
   "property": "C80",
   "status": "proved",
   "theorems": [
    "C80_report",
    "C80_subnets_add_up",
    "C80_snapshot",
    "C80_agg_start",
    "C80_proposal"
   ],
   "note": "Gauge values are unbounded numbers and subnet labels are numbers; Prometheus is not modelled."
  },
  {
   "property": "C81",
   "status": "proved",
   "theorems": [
    "C81_accepted_signed",
    "C81_block_accepted_signed",
    "C81_made_accepted",
    "C81_made",
    "C81_merge",
    "C81_split"
   ],
   "note": "lean-multisig and XMSS are parameters; soundness of their verifiers, and that their provers make valid proofs of valid inputs, are hypotheses (CryptoSpec.v) met by a small example library. Keys are compared as sets: the library is taken to order them itself. The build feature shadow-integration, which accepts everything, is not modelled."
  },
  {
   "property": "C82",
   "status": "partial",
   "theorems": [
    "C82_timeline",
    "C82_undisturbed",
    "C82_status",
    "C82_syncing_partial",
    "C82_syncing_refuted",
    "C82_header",
    "C82_fork_choice_partial",
    "C82_fork_choice_refuted",
    "C82_block",
    "C82_range_partial",
    "C82_range_steady",
    "C82_range_complete",
    "C82_range_refuted"
   ],
   "note": "The full statement is false in three places: a range answer can hold blocks of two forks (C82_range_refuted), a sync report a finalized slot above its head slot (C82_syncing_refuted), a fork choice report a head that is not among its blocks (C82_fork_choice_refuted). Everything else is proved, and the range lies on one chain when the head only moves forward meanwhile. A commit is atomic; the vote table, which has its own lock, may be any. Requests by slot for whole blocks, the finalized state and pruning of the vote table are not part of this model."
  },
  {
   "property": "C83",
   "status": "proved",
   "theorems": [
    "C83_same_head",
    "C83_settled",
    "C83_agree",
    "C83_safe_target",
    "C83_same_vote",
    "C83_import_order"
   ],
   "note": "Header, body and vote hashes are assumed injective. C83_order_matters (an Example) shows that the exception is real: when all validators vote for two blocks of one slot, the order of import decides the justified checkpoint and the branch. Equality of the finalized checkpoint is stated for nodes started at genesis."
  },
  {
   "property": "C84",
   "status": "proved",
   "theorems": [
    "C84_answers",
    "C84_off",
    "C84_never",
    "C84_on",
    "C84_chain"
   ],
   "note": "Toggles fall between two messages of the actor; the code reads the flag again at each use while one vote or block is handled (a tick takes one snapshot). axum and serde_json are modelled by their documented behaviour. C84_chain excludes the results of the node's own workers, which put the aggregate into the pool."
  },
  {
   "property": "C85",
   "status": "proved",
   "theorems": [
    "C85_catch_up",
    "C85_from_peer"
   ],
   "note": "Every request is answered by the same peer; lost requests, retries and the choice of peers are C46 to C49. Other messages do not fall between the deliveries (C41_all allows them for the import). Validity of the chain is stated by valid_tree in C85_catch_up and derived from the peer having imported it in C85_from_peer. That no state of the node finalizes a slot of the chain excludes chains that compete with a finalized branch."
  },
  {
   "property": "C86",
   "status": "partial",
   "theorems": [
    "C86_delay",
    "C86_shown",
    "C86_changes",
    "C86_unreached",
    "C86_rate",
    "C86_board_partial",
    "C86_names_refuted",
    "C86_still_refuted"
   ],
   "note": "The full statement is false in two places: the validation admits two nodes of the same name, which then share one status (C86_names_refuted), and a node that accepts connections and closes them at once never stays down (C86_still_refuted; nodes that never accept do, C86_unreached). The rate is a pair of numbers, not a floating-point quotient. That timers fire is not part of the model."
  },
  {
   "property": "C87",
   "status": "partial",
   "theorems": [
    "C87_subscription",
    "C87_resolved",
    "C87_no_source",
    "C87_refresh",
    "C87_kept_partial",
    "C87_config",
    "C87_outage_refuted",
    "C87_disagree_refuted",
    "C87_config_refuted"
   ],
   "note": "The full statement is false in three places: with genesis time and slot duration configured, an outage replaces a number of intervals other than five (C87_outage_refuted); nodes of different geometry take over from each other (C87_disagree_refuted); a configured topic may be one that every node refuses (C87_config_refuted). HTTP and JSON are left out: a node answers or does not."
  },
  {
   "property": "C88",
   "status": "partial",
   "theorems": [
    "C88_root_read",
    "C88_root_written",
    "C88_root_same",
    "C88_root_as_block_id",
    "C88_genesis_read",
    "C88_keys_kept",
    "C88_validator_file",
    "C88_same_keys_refuted"
   ],
   "note": "The last sentence is false: a key with 0x before it is accepted in the genesis file and makes the validator file unreadable (C88_same_keys_refuted; C88_validator_file says what is accepted there). JSON and YAML syntax is left out: a text comes as a string."
  },
  {
   "property": "C89",
   "status": "proved",
   "theorems": [
    "C89_transition",
    "C89_clock",
    "C89_slot_start",
    "C89_gates",
    "C89_genesis_time"
   ],
   "note": "C89_genesis_time shows that the bound on the genesis time is needed; nothing in the code checks it. States that do not come from a chain from genesis (checkpoint sync) are not covered, nor is the arithmetic of storage, networking and metrics."
  },
  {
   "property": "C90",
   "status": "partial",
   "theorems": [
    "C90_requests_partial",
    "C90_requests_refuted",
    "C90_urls",
    "C90_committees",
    "C90_ports",
    "C90_key_file"
   ],
   "note": "The first sentence is false of one spelling: a base URL that ends with a slash, followed by the path of the state, keeps the slash, so both requests go to a path with two slashes (C90_requests_refuted). Blanks are those of ASCII. The parsers of the command line and of YAML are left out."
  },
  {
   "property": "C91",
   "status": "partial",
   "theorems": [
    "C91_delay_partial",
    "C91_dots",
    "C91_bounded",
    "C91_delay_refuted",
    "C91_page_partial",
    "C91_page_refuted"
   ],
   "note": "The full statement is false in two places: an event of the history that comes over the stream after it is taken in twice (C91_page_refuted; the panel for delays does not care, the other one draws two dots), and a block that has been cleaned up comes back with a late node shown as the first (C91_delay_refuted). Exact delays are proved while nothing is removed; after removals every dot is still measured from a real arrival (C91_dots). Positions and fading are left out (the other panel is C92); names and identifiers are numbers."
  },
  {
   "property": "C92",
   "status": "partial",
   "theorems": [
    "C92_lane_partial",
    "C92_flood_refuted",
    "C92_window_refuted"
   ],
   "note": "The full statement is false in two places: only the last 2000 events of a node are kept, so that votes push out a recent block (C92_flood_refuted), and what has been cleaned up does not come back with a wider window (C92_window_refuted). Of the last 2000 events it is proved, clean-ups and narrower windows included. Positions, fading and jitter are left out."
  },
  {
   "property": "C93",
   "status": "partial",
   "theorems": [
    "C93_text_partial",
    "C93_same",
    "C93_one_partial",
    "C93_shape",
    "C93_collision_refuted"
   ],
   "note": "One direction holds (C93_same). The other is false of a hash of 64 bits that is not cryptographic: C93_collision_refuted gives two votes for different heads with the same identifier, found in a minute with two threads. The hashed text tells all aggregates apart (C93_text_partial), and texts that differ in one character never collide (C93_one_partial). Roots contain no character that JSON escapes."
  },
  {
   "property": "C94",
   "status": "partial",
   "theorems": [
    "C94_request",
    "C94_accepted",
    "C94_total",
    "C94_status",
    "C94_refusal_partial",
    "C94_refusal_refuted",
    "C94_blocks",
    "C94_status_accepted",
    "C94_message"
   ],
   "note": "False in one place: a refusal of a request for blocks arrives as an answer without blocks (C94_refusal_refuted), so the requester cannot tell the two apart; refusals of status requests arrive (C94_refusal_partial). Blocks above the size limit are left out by the sender (C94_blocks). The SSZ encodings of the small messages are written out after the SSZ rules, libssz itself is not modelled; snappy, its checksum and the encoding of blocks are parameters. A text that is cut at 256 bytes may end within a character (C94_message is about bytes)."
  }
 ]
}