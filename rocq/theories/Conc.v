(** Requests served while the node works: crates/net/rpc/src/{node,fork_choice,blocks}.rs
    and crates/net/p2p/src/req_resp/handlers.rs run beside the actor that imports blocks
    and handles ticks.  Every read of a request sees the database of its own moment: a
    read view of the RocksDB backend is a handle on the database, not a snapshot
    (crates/storage/src/backend/rocksdb.rs:67-71, 105-113). *)
From Verif Require Export NodeSpec Serve.
Local Open Scope N_scope.

Section Conc.
  Context (E : Env).
  Notation hb := (e_body E).

  (** *** The databases the node commits while it handles an event, in order *)
  Definition or_nil {Er A} (r : res Er (list A)) : list A := match r with Ok l => l | _ => [] end.
  (** crates/blockchain/src/store.rs:65-137 with crates/storage/src/store.rs:868-924: head
      and checkpoints with the slot index, then the pruning of the live chain *)
  Definition update_commits (n : Node) : list Db :=
    or_nil (let! h := ghost_head n in
            let! fin := head_finalized (tab n) h in
            let! d := apply_checkpoints (nd_db n) h None fin in
            Ok [d; prune_after d (finalization_advanced (nd_db n) fin)]).
  (** store.rs:54-59 *)
  Definition accept_commits (n : Node) : list Db :=
    match payload_promote (e_data E) (nd_new n) (nd_known n) with
    | Ok p => update_commits (mkNode (nd_db n) (promote (e_data E) (nd_votes n)) p.1 p.2 (nd_gossip n))
    | _ => []
    end.
  (** store.rs:150-171 *)
  Definition safe_commits (n : Node) : list Db :=
    match update_safe_target n with Ok n' => [nd_db n'] | _ => [] end.
  (** store.rs:347-384, one iteration: the clock first *)
  Definition tick_once_commits (n : Node) (has_proposal last : bool) : list Db :=
    let time := db_time (nd_db n) + 1 in
    let n1 := with_db n (set_time (nd_db n) time) in
    nd_db n1 ::
    match interval_of time with
    | BlockPublication => if has_proposal && last then accept_commits n1 else []
    | AttestationProduction | Aggregation => []
    | SafeTargetUpdate => safe_commits n1
    | EndOfSlot => accept_commits n1
    end.
  (** store.rs:346-385 *)
  Fixpoint tick_loop_commits (k : nat) (n : Node) (has_proposal : bool) : list Db :=
    match k with
    | O => []
    | S k' =>
        let last := match k' with O => true | _ => false end in
        tick_once_commits n has_proposal last ++
        match tick_once E n has_proposal last with
        | Ok n' => tick_loop_commits k' n' has_proposal
        | _ => []
        end
    end.
  (** store.rs:329-386 *)
  Definition on_tick_commits (n : Node) (timestamp_ms : N) (has_proposal : bool) : list Db :=
    let time := (timestamp_ms - db_gt (nd_db n) * 1000) / MILLISECONDS_PER_INTERVAL in
    let jump := INTERVALS_PER_SLOT <? time - db_time (nd_db n) in
    let n1 := if jump then with_db n (set_time (nd_db n) (time - INTERVALS_PER_SLOT)) else n in
    (if jump then [nd_db n1] else []) ++
    tick_loop_commits (N.to_nat (time - db_time (nd_db n1))) n1 has_proposal.
  (** All events; those not listed only change memory. *)
  Definition commits (n : Node) (e : node_event) : list Db :=
    match e with
    | ev_block sb => or_nil (import_commits E n sb)
    | ev_pending _ | ev_prune => match node_step E n e with Ok n' => [nd_db n'] | _ => [] end
    | ev_tick ts hp => on_tick_commits n ts hp
    | ev_propose slot =>
        let ts := db_gt (nd_db n) * 1000 + slot * MILLISECONDS_PER_SLOT in
        on_tick_commits n ts true ++
        match on_tick E n ts true with Ok n1 => accept_commits n1 | _ => [] end
    | ev_attestation _ _ | ev_aggregate _ | ev_local _ _ | ev_restart => []
    end.

  (** *** Requests, read by read: [d1], [d2], ... are the databases of the reads, in the
      order of the code *)
  (** handlers.rs:382-397: finalized checkpoint, head, header of the head *)
  Definition status_reads (d1 d2 d3 : Db) : res unit Status :=
    match get_header (db_tab d3) (db_head d2) with
    | None => Panic
    | Some h => Ok (mkStatus (db_fin d1) (mkCp (db_head d2) (h_slot h)))
    end.
  (** node.rs:11-16, without the sync flag (C40) *)
  Record Syncing := mkSyncing { sy_head_slot : N; sy_distance : N; sy_finalized_slot : N }.
  (** node.rs:37-59 with store.rs:1717-1722: head, its header, finalized checkpoint *)
  Definition syncing_reads (wall_slot : N) (d1 d2 d3 : Db) : res unit Syncing :=
    match get_header (db_tab d2) (db_head d1) with
    | None => Panic
    | Some h => Ok (mkSyncing (h_slot h) (wall_slot - h_slot h) (cp_slot (db_fin d3)))
    end.
  (** store.rs:1733-1737.  Simplified: one read of the state; the code may follow diffs,
      which are never changed. *)
  Definition head_state_reads (d1 d2 : Db) : res unit State :=
    let! o := expect (read_state (db_tab d2) (db_head d1)) in
    match o with Some s => Ok s | None => Panic end.
  (** blocks.rs:40-54, 82-92: the header of a block asked for by slot *)
  Definition header_reads (slot : N) (d1 d2 d3 : Db) : res unit (HttpResp Header) :=
    let! s := head_state_reads d1 d2 in
    match getN (s_hist s) slot with
    | None => Ok HNotFound
    | Some root =>
        if root =? ZERO then Ok HNotFound
        else Ok (match get_header (db_tab d3) root with Some h => HOk h | None => HNotFound end)
    end.
  (** fork_choice.rs:37-86: live chain, votes, justified, finalized, head, safe target,
      head again, its state, and then a header for each block. *)
  Definition fork_choice_reads (votes : VoteEntries) (d1 d2 d3 d4 d5 d6 d7 : Db) (dh : H256 -> Db)
    : res unit ForkChoiceResponse :=
    let blocks := map_to_list (live_chain (db_tab d1)) in
    match compute_block_weights (cp_slot (db_fin d3)) blocks votes with
    | None => Err tt (* the walk would not end *)
    | Some weights =>
        let! s := head_state_reads d6 d7 in
        Ok (mkFCR
          (map (fun x => mkFCN x.1 x.2.1 x.2.2
             (match get_header (db_tab (dh x.1)) x.1 with Some h => h_proposer h | None => 0 end)
             (default 0 (weights !! x.1))) blocks)
          (db_head d4) (db_just d2) (db_fin d3) (db_safe d5) (lenN (s_validators s)))
    end.
  (** crates/storage/src/store.rs:1247-1279: header, body, proof *)
  Definition signed_block_reads (d1 d2 d3 : Db) (root : H256) : option SignedBlock :=
    match t_headers (db_tab d1) !! root with
    | None => None
    | Some h =>
        match (if h_body_root h =? EMPTY_BODY_ROOT hb then Some [] else t_bodies (db_tab d2) !! root) with
        | None => None
        | Some body =>
            match t_proofs (db_tab d3) !! (h_slot h, root) with
            | Some p => Some (mkSB (from_header_and_body h body) p)
            | None => if h_slot h =? 0 then Some (mkSB (from_header_and_body h body) EMPTY_PROOF) else None
            end
        end
    end.
  (** crates/storage/src/store.rs:1286-1306, one entry per slot from [slot] on: slot index,
      header, body, proof.  The number of entries is the number of slots asked for
      (handlers.rs:225-284). *)
  Fixpoint range_reads (slot : N) (ds : list (Db * Db * Db * Db)) : list SignedBlock :=
    match ds with
    | [] => []
    | (d0, d1, d2, d3) :: ds' =>
        match t_roots (db_tab d0) !! slot with
        | None => range_reads (slot + 1) ds'
        | Some r =>
            match signed_block_reads d1 d2 d3 r with
            | Some sb => sb :: range_reads (slot + 1) ds'
            | None => range_reads (slot + 1) ds'
            end
        end
    end.
End Conc.
