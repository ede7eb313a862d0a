(** Model of the blockchain actor, crates/blockchain/src/lib.rs (with events.rs
    and sync_status.rs): what it does on each message, on top of the node model.

    Not modelled: metrics, logs, coverage reports, XMSS key advance, the worker
    threads themselves, [AggregationDone] and [AggregationDeadline] (which only
    touch metrics and the worker's cancellation token) and a missing P2P handle.
    [Panic] stands for a panic, [Err tt] for a loop that never ends. *)
From Coq Require Import String.
From Verif Require Export Node.

(** sync_status.rs *)
Definition SYNC_LAG_THRESHOLD : N := 4.
Definition NETWORK_STALL_THRESHOLD : N := 8.
Definition SYNC_HYSTERESIS_BAND : N := 2.
(** sync_status.rs:90-123 [update], [syncing] before and after *)
Definition sync_update (syncing : bool) (current_slot head_slot max_seen_slot : N) : bool :=
  let head_lag := current_slot - head_slot in
  let network_lag := current_slot - max_seen_slot in
  if NETWORK_STALL_THRESHOLD <? network_lag then false
  else if syncing then SYNC_LAG_THRESHOLD - SYNC_HYSTERESIS_BAND <? head_lag
  else SYNC_LAG_THRESHOLD <? head_lag.
(** sync_status.rs:125-128 *)
Definition duties_allowed_ (gate_duties syncing : bool) : bool := negb gate_duties || negb syncing.

(** lib.rs:129-135 *)
Definition ms_until_next_interval (now_ms genesis_time_ms : N) : N :=
  if now_ms <? genesis_time_ms then genesis_time_ms - now_ms
  else MILLISECONDS_PER_INTERVAL - (now_ms - genesis_time_ms) mod MILLISECONDS_PER_INTERVAL.
(** lib.rs:1318-1332 [handle_tick]: the delay before the next tick, for a handler
    entered at [now] and left at [after]. *)
Definition next_tick_delay (now after genesis_time_ms : N) : N :=
  let remaining_at_entry := ms_until_next_interval now genesis_time_ms in
  if remaining_at_entry <=? after - now then 0
  else ms_until_next_interval after genesis_time_ms.

(** events.rs:32-44 *)
Inductive Topic :=
| THead | TBlock | TJustifiedCheckpoint | TFinalizedCheckpoint | TBlockGossip | TAttestation | TAggregate.
(** events.rs:46-58 *)
Definition topic_str (t : Topic) : string :=
  match t with
  | THead => "head" | TBlock => "block" | TJustifiedCheckpoint => "justified_checkpoint"
  | TFinalizedCheckpoint => "finalized_checkpoint" | TBlockGossip => "block_gossip"
  | TAttestation => "attestation" | TAggregate => "aggregate"
  end.
(** events.rs:69-80 *)
Definition topic_of_str (s : string) : option Topic :=
  if String.eqb s "head" then Some THead
  else if String.eqb s "block" then Some TBlock
  else if String.eqb s "justified_checkpoint" then Some TJustifiedCheckpoint
  else if String.eqb s "finalized_checkpoint" then Some TFinalizedCheckpoint
  else if String.eqb s "block_gossip" then Some TBlockGossip
  else if String.eqb s "attestation" then Some TAttestation
  else if String.eqb s "aggregate" then Some TAggregate
  else None.

(** events.rs:99-130 *)
Inductive ChainEvent :=
| CeHead (slot : N) (block state : H256)
| CeBlock (slot : N) (block : H256)
| CeJustified (slot : N) (block state : H256)
| CeFinalized (slot : N) (block state : H256)
| CeBlockGossip (slot : N) (block : H256)
| CeAttestation (validator_id : N) (data : AttestationData)
| CeAggregate (participants : list N) (data : AttestationData).
(** events.rs:132-144 *)
Definition topic_of (e : ChainEvent) : Topic :=
  match e with
  | CeHead _ _ _ => THead | CeBlock _ _ => TBlock | CeJustified _ _ _ => TJustifiedCheckpoint
  | CeFinalized _ _ _ => TFinalizedCheckpoint | CeBlockGossip _ _ => TBlockGossip
  | CeAttestation _ _ => TAttestation | CeAggregate _ _ => TAggregate
  end.

(** events.rs:204 *)
Definition HEAD_EVENT_RECENCY_SLOTS : N := 32.
(** events.rs:248-308: the events for the move from [old] (the snapshot) to [new]. *)
Definition diff_and_emit (old new : Db) (wall_clock_slot : N) : list ChainEvent :=
  let t := db_tab new in
  (if db_head new =? db_head old then []
   else match get_header t (db_head new) with
        | Some h => if wall_clock_slot <=? h_slot h + HEAD_EVENT_RECENCY_SLOTS
                    then [CeHead (h_slot h) (db_head new) (h_state_root h)] else []
        | None => []
        end) ++
  (if bool_decide (db_just new = db_just old) then []
   else match get_header t (cp_root (db_just new)) with
        | Some h => [CeJustified (cp_slot (db_just new)) (cp_root (db_just new)) (h_state_root h)]
        | None => []
        end) ++
  (if bool_decide (db_fin new = db_fin old) then []
   else match get_header t (cp_root (db_fin new)) with
        | Some h => [CeFinalized (cp_slot (db_fin new)) (cp_root (db_fin new)) (h_state_root h)]
        | None => []
        end).

(** What the actor sends out. *)
Inductive Effect :=
| fx_fetch (root : H256)
| fx_event (e : ChainEvent)
| fx_publish_block (sb : SignedBlock)
| fx_publish_att (sa : SignedAtt)
| fx_publish_agg (sg : SignedAgg)
| fx_session (slot max_jobs : N).

(** The actor, lib.rs:195-284.
    [ac_pend]: [pending_blocks], parent root to waiting child roots.
    [ac_par]: [pending_block_parents], pending root to its missing ancestor.
    [ac_session]: the id of [current_aggregation]. *)
Record Actor := mkActor {
  ac_node : Node;
  ac_pend : gmap H256 (gset H256);
  ac_par : gmap H256 H256;
  ac_syncing : bool;
  ac_session : option N }.
Definition with_node (a : Actor) (n : Node) : Actor :=
  mkActor n (ac_pend a) (ac_par a) (ac_syncing a) (ac_session a).
Definition with_maps (a : Actor) (pend : gmap H256 (gset H256)) (par : gmap H256 H256) : Actor :=
  mkActor (ac_node a) pend par (ac_syncing a) (ac_session a).
(** lib.rs:150-193: the actor at start-up *)
Definition start_actor (n : Node) : Actor := mkActor n ∅ ∅ false None.

(** Start-up configuration: own validators (in the key manager's iteration
    order), committee count, subscribed subnets (a set), the duty gate. *)
Record Config := mkConfig {
  cf_own : list N;
  cf_committees : N;
  cf_subnets : list N;
  cf_gate : bool }.

(** What the outside decides while one message is handled: the wall clock at
    entry and when a block import ends, the aggregator flag, the iteration order
    of hash sets, signing, the block the proposer builds and signs ([None] on any
    failure), the aggregates recovered from an imported block, whether there is
    anything to aggregate. *)
Record World := mkWorld {
  w_now : N;
  w_after : N;
  w_aggregator : bool;
  w_iter : gset H256 -> list H256;
  w_sign : N -> AttestationData -> option N;
  w_build : Node -> N -> N -> option SignedBlock;
  w_reagg : Node -> SignedBlock -> list (AttestationData * Proof_);
  w_jobs : Node -> N -> N -> bool }.

Section Actor.
  Context (E : Env) (C : Config).
  Local Notation root_of b := (block_root (e_header E) (e_body E) b).
  Local Notation signed_block := (get_signed_block (e_body E)).

  Definition duties_allowed (a : Actor) : bool := duties_allowed_ (cf_gate C) (ac_syncing a).

  (** crates/storage/src/store.rs:1717-1722, 1725-1730 *)
  Definition slot_of_root (n : Node) (r : H256) : res unit N :=
    match get_header (tab n) r with Some h => Ok (h_slot h) | None => Panic end.
  (** crates/storage/src/store.rs [head_state] *)
  Definition head_state (n : Node) : res unit State :=
    let! o := expect (read_state (tab n) (db_head (nd_db n))) in
    match o with Some s => Ok s | None => Panic end.

  (** Slot of the wall clock time [ms] (lib.rs:291-293). *)
  Definition wall_slot (n : Node) (ms : N) : N := (ms - db_gt (nd_db n) * 1000) / MILLISECONDS_PER_SLOT.

  (** lib.rs:648-656 *)
  Definition get_our_proposer (a : Actor) (slot : N) : res unit (option N) :=
    let! s := head_state (ac_node a) in
    Ok (List.find (fun v => is_proposer v slot (lenN (s_validators s))) (cf_own C)).

  (** lib.rs:925-972 [process_block] *)
  Definition import_and_emit (W : World) (n : Node) (sb : SignedBlock)
    : res ImportError (Node * list Effect) :=
    let r := root_of (sb_block sb) in
    let is_new := negb (has_state (tab n) r) in
    let! n' := on_block E n sb in
    let! _ := expect (slot_of_root n' (db_head (nd_db n'))) in
    Ok (n', (if is_new then [fx_event (CeBlock (b_slot (sb_block sb)) r)] else []) ++
            map fx_event (diff_and_emit (nd_db n) (nd_db n') (wall_slot n (w_after W)))).

  (** lib.rs:1150-1177 and reaggregate.rs:50-230: the recovered aggregates go to the
      new pool, and to the network from an aggregator. *)
  Definition run_reaggregate (W : World) (a : Actor) (sb : SignedBlock) : res unit (Actor * list Effect) :=
    if duties_allowed a then
      let l := w_reagg W (ac_node a) sb in
      let! n := insert_new_batch E (ac_node a) l in
      Ok (with_node a n, if w_aggregator W then map (fun x => fx_publish_agg (mkSAgg x.1 x.2)) l else [])
    else Ok (a, []).

  (** lib.rs:1190-1216 *)
  Definition collect_pending_children (W : World) (a : Actor) (parent : H256) : Actor * list SignedBlock :=
    match ac_pend a !! parent with
    | None => (a, [])
    | Some cs =>
        let l := w_iter W cs in
        (with_maps a (delete parent (ac_pend a)) (foldr delete (ac_par a) l),
         omap (signed_block (tab (ac_node a))) l)
    end.

  (** lib.rs:1222-1230; the recursion runs out of [fuel] only in a never-ending call. *)
  Fixpoint discard (fuel : nat) (W : World) (a : Actor) (root : H256) : res unit Actor :=
    match ac_pend a !! root with
    | None => Ok a
    | Some cs =>
        match fuel with
        | O => Err tt
        | S f =>
            fold_left (fun (r : res unit Actor) c =>
              let! a := r in
              discard f W (with_maps a (ac_pend a) (delete c (ac_par a))) c)
              (w_iter W cs) (Ok (with_maps a (delete root (ac_pend a)) (ac_par a)))
        end
    end.
  Definition discard_pending_subtree (W : World) (a : Actor) (root : H256) : res unit Actor :=
    discard (size (ac_pend a)) W a root.

  (** lib.rs:1052-1054 *)
  Fixpoint chase (fuel : nat) (par : gmap H256 H256) (r : H256) : res unit H256 :=
    match par !! r with
    | None => Ok r
    | Some r' => match fuel with O => Err tt | S f => chase f par r' end
    end.

  (** lib.rs:1073-1104: up through stored blocks; a block to import, or the root
      that is missing. *)
  Fixpoint walk_up (fuel : nat) (n : Node) (a : Actor) (r : H256) : res unit (Actor * (SignedBlock + H256)) :=
    match get_header (tab n) r with
    | None => Ok (a, inr r)
    | Some h =>
        if has_state (tab n) (h_parent h) then
          match signed_block (tab n) r with
          | Some sb => Ok (a, inl sb)
          | None => Panic
          end
        else
          match fuel with
          | O => Err tt
          | S f =>
              walk_up f n (with_maps a
                (<[h_parent h := {[r]} ∪ default ∅ (ac_pend a !! h_parent h)]> (ac_pend a))
                (<[r := h_parent h]> (ac_par a))) (h_parent h)
          end
    end.

  (** lib.rs:997-1148: the actor, the blocks to process next and the effects *)
  Definition process_or_pend_block (W : World) (a : Actor) (sb : SignedBlock)
    : res unit (Actor * list SignedBlock * list Effect) :=
    let b := sb_block sb in
    let n := ac_node a in
    let root := root_of b in
    if b_slot b <=? cp_slot (db_fin (nd_db n)) then
      let! a' := discard_pending_subtree W a root in Ok (a', [], [])
    else if db_time (nd_db n) + GOSSIP_DISPARITY_INTERVALS <? saturating_mul (b_slot b) INTERVALS_PER_SLOT then
      let! a' := discard_pending_subtree W a root in Ok (a', [], [])
    else if negb (has_state (tab n) (b_parent b)) then
      let! missing := chase (size (ac_par a)) (ac_par a) (b_parent b) in
      let n' := with_db n (with_tab (nd_db n) (insert_pending_block (e_body E) (tab n) root sb)) in
      let a1 := mkActor n'
        (<[b_parent b := {[root]} ∪ default ∅ (ac_pend a !! b_parent b)]> (ac_pend a))
        (<[root := missing]> (ac_par a)) (ac_syncing a) (ac_session a) in
      let! x := walk_up (size (t_headers (tab n'))) n' a1 missing in
      match x.2 with
      | inl sb' => Ok (x.1, [sb'], [])
      | inr r => Ok (x.1, [], [fx_fetch r])
      end
    else
      match import_and_emit W n sb with
      | Ok (n', fx) =>
          let! y := run_reaggregate W (with_node a n') sb in
          let z := collect_pending_children W y.1 root in
          Ok (z.1, z.2, fx ++ y.2)
      | Err _ => Ok (a, [], [])
      | Panic => Panic
      end.

  (** lib.rs:976-984: the work queue *)
  Fixpoint block_loop (fuel : nat) (W : World) (a : Actor) (queue : list SignedBlock)
    : res unit (Actor * list Effect) :=
    match queue with
    | [] => Ok (a, [])
    | sb :: q =>
        match fuel with
        | O => Err tt
        | S f =>
            let! x := process_or_pend_block W a sb in
            let! y := block_loop f W x.1.1 (q ++ x.1.2) in
            Ok (y.1, x.2 ++ y.2)
        end
    end.
  (** lib.rs:975-992 *)
  Definition actor_on_block (W : World) (a : Actor) (sb : SignedBlock) : res unit (Actor * list Effect) :=
    let! x := block_loop (size (t_headers (tab (ac_node a))) + 4) W a [sb] in
    let! d := prune_old_data (nd_db (ac_node x.1)) in
    Ok (with_node x.1 (with_db (ac_node x.1) d), x.2).

  (** lib.rs:482-572 *)
  Definition start_aggregation_session (W : World) (a : Actor) (slot : N) : res unit (Actor * list Effect) :=
    let! p := get_our_proposer a (slot + 1) in
    let max_jobs := match p with Some _ => if duties_allowed a then 1 else 2 | None => 2 end in
    if w_jobs W (ac_node a) slot max_jobs
    then Ok (mkActor (ac_node a) (ac_pend a) (ac_par a) (ac_syncing a) (Some slot), [fx_session slot max_jobs])
    else Ok (mkActor (ac_node a) (ac_pend a) (ac_par a) (ac_syncing a) None, []).

  (** lib.rs:620-638, the votes expected from the subscribed subnets *)
  Definition expected_votes (validator_count committee_count : N) (subnets : list N) : N :=
    foldr N.add 0 (map (fun s => validator_count / committee_count +
                                 (if s <? validator_count mod committee_count then 1 else 0))
                       (filter (fun s => s < committee_count) subnets)).
  (** lib.rs:613-638 *)
  Definition min_group_sigs (validator_count : N) : N :=
    if cf_committees C =? 0 then 0
    else (2 * expected_votes validator_count (cf_committees C) (cf_subnets C) + 2) / 3.
  Definition EARLY_AGGREGATION_WINDOW : N := 600.
  (** lib.rs:584-645 *)
  Definition maybe_start_early_aggregation (W : World) (a : Actor) : res unit (Actor * list Effect) :=
    let genesis := db_gt (nd_db (ac_node a)) * 1000 in
    if negb (w_aggregator W) then Ok (a, [])
    else if w_now W <? genesis then Ok (a, [])
    else
      let ms := w_now W - genesis in
      let into := ms mod MILLISECONDS_PER_SLOT in
      if (into <? 2 * MILLISECONDS_PER_INTERVAL - EARLY_AGGREGATION_WINDOW)
         || (2 * MILLISECONDS_PER_INTERVAL <=? into) then Ok (a, [])
      else
        let slot := ms / MILLISECONDS_PER_SLOT in
        if bool_decide (ac_session a = Some slot) then Ok (a, [])
        else
          let! s := head_state (ac_node a) in
          let m := min_group_sigs (lenN (s_validators s)) in
          if (m =? 0) || (max_group_count_for_slot slot (nd_gossip (ac_node a)) <? m) then Ok (a, [])
          else start_aggregation_session W a slot.

  (** lib.rs:659-706: one signed vote after the other; an aggregator delivers its
      own votes to itself, whatever the outcome. *)
  Fixpoint publish_votes (W : World) (n : Node) (data : AttestationData) (is_aggregator : bool) (vs : list N)
    : res unit (Node * list Effect) :=
    match vs with
    | [] => Ok (n, [])
    | v :: vs' =>
        match w_sign W v data with
        | None => publish_votes W n data is_aggregator vs'
        | Some sig =>
            let sa := mkSA v data sig in
            let! n1 := (if is_aggregator
                        then match on_gossip_attestation E n sa true with
                             | Ok n1 => Ok n1 | Err _ => Ok n | Panic => Panic end
                        else Ok n) in
            let! x := publish_votes W n1 data is_aggregator vs' in
            Ok (x.1, fx_publish_att sa :: x.2)
        end
    end.
  Definition produce_attestations (W : World) (a : Actor) (slot : N) (is_aggregator : bool)
    : res unit (Actor * list Effect) :=
    let! data := produce_attestation_data (nd_db (ac_node a)) slot in
    let! x := publish_votes W (ac_node a) data is_aggregator (cf_own C) in
    Ok (with_node a x.1, x.2).

  (** lib.rs:724-922: catch up to the slot, build and sign (oracle), import,
      publish. *)
  Definition propose_block (W : World) (a : Actor) (slot vid : N) : res unit (Actor * list Effect) :=
    let! x := get_proposal_head E (ac_node a) slot in
    let n1 := x.1 in
    let ev := map fx_event (diff_and_emit (nd_db (ac_node a)) (nd_db n1) slot) in
    match w_build W n1 slot vid with
    | None => Ok (with_node a n1, ev)
    | Some sb =>
        match import_and_emit W n1 sb with
        | Ok (n2, fx) => Ok (with_node a n2, ev ++ fx ++ [fx_publish_block sb])
        | Err _ => Ok (with_node a n1, ev)
        | Panic => Panic
        end
    end.

  (** lib.rs:1262-1274 *)
  Definition update_sync_status (a : Actor) (slot : N) : res unit Actor :=
    let! hslot := slot_of_root (ac_node a) (db_head (nd_db (ac_node a))) in
    let seen := default hslot (max_live_chain_slot (tab (ac_node a))) in
    Ok (mkActor (ac_node a) (ac_pend a) (ac_par a) (sync_update (ac_syncing a) slot hslot seen) (ac_session a)).

  (** lib.rs:376-448: the duty of the interval *)
  Definition interval_duty (W : World) (a : Actor) (slot : N) (i : SlotInterval) : res unit (Actor * list Effect) :=
    match i with
    | BlockPublication | SafeTargetUpdate => Ok (a, [])
    | AttestationProduction =>
        if duties_allowed a then produce_attestations W a slot (w_aggregator W) else Ok (a, [])
    | Aggregation =>
        if w_aggregator W && negb (bool_decide (ac_session a = Some slot))
        then start_aggregation_session W a slot else Ok (a, [])
    | EndOfSlot =>
        let! p := get_our_proposer a (slot + 1) in
        match p with
        | Some v => if duties_allowed a then propose_block W a (slot + 1) v else Ok (a, [])
        | None => Ok (a, [])
        end
    end.

  (** lib.rs:287-470 *)
  Definition actor_on_tick (W : World) (a : Actor) : res unit (Actor * list Effect) :=
    let n := ac_node a in
    let ms := w_now W - db_gt (nd_db n) * 1000 in
    let slot := ms / MILLISECONDS_PER_SLOT in
    let interval := interval_of (ms / MILLISECONDS_PER_INTERVAL) in
    let time := db_time (nd_db n) in
    if (0 <? time) && (ms / MILLISECONDS_PER_INTERVAL <=? time) then Ok (a, [])
    else
      let! s := head_state n in
      match s_validators s with
      | [] => Ok (a, [])
      | _ =>
          let! a1 := update_sync_status a slot in
          let! proposing :=
            (if (ms / MILLISECONDS_PER_INTERVAL) mod INTERVALS_PER_SLOT =? 0 then
               if 0 <? slot then
                 let! p := get_our_proposer a1 slot in
                 Ok (match p with Some _ => true | None => false end)
               else Ok false
             else Ok false) in
          let! n2 := on_tick E n (w_now W) proposing in
          let ev := map fx_event (diff_and_emit (nd_db n) (nd_db n2) slot) in
          let! y := interval_duty W (with_node a1 n2) slot interval in
          let! _ := slot_of_root (ac_node y.1) (db_safe (nd_db (ac_node y.1))) in
          let! _ := slot_of_root (ac_node y.1) (db_head (nd_db (ac_node y.1))) in
          Ok (y.1, ev ++ y.2)
      end.

  (** Messages to the actor.  [m_produced]: one aggregate of a worker, with its
      session, participants and the signatures it consumes. *)
  Inductive message :=
  | m_tick
  | m_block (sb : SignedBlock) (gossip : bool)
  | m_attestation (sa : SignedAtt)
  | m_aggregate (sg : SignedAgg)
  | m_early_check
  | m_produced (session : N) (data : AttestationData) (proof : Proof_)
      (participants : list N) (keys : list (N * H256)).

  (** lib.rs:1298-1337, 1373-1487 *)
  Definition actor_step (W : World) (a : Actor) (m : message) : res unit (Actor * list Effect) :=
    let n := ac_node a in
    match m with
    | m_tick => actor_on_tick W a
    | m_block sb gossip =>
        let! x := actor_on_block W a sb in
        Ok (x.1, (if gossip then [fx_event (CeBlockGossip (b_slot (sb_block sb)) (root_of (sb_block sb)))] else [])
                 ++ x.2)
    | m_attestation sa =>
        let! x := match on_gossip_attestation E n sa (w_aggregator W) with
                  | Ok n' => Ok (n', [fx_event (CeAttestation (sa_validator sa) (sa_data sa))])
                  | Err _ => Ok (n, [])
                  | Panic => Panic
                  end in
        let a1 := with_node a x.1 in
        if ad_slot (sa_data sa) =? current_slot (nd_db x.1) then
          let! y := maybe_start_early_aggregation W a1 in
          Ok (y.1, x.2 ++ y.2)
        else Ok (a1, x.2)
    | m_aggregate sg =>
        match on_gossip_aggregated_attestation E n sg with
        | Ok n' => Ok (with_node a n',
                       [fx_event (CeAggregate (validator_indices (pr_bits (sg_proof sg))) (sg_data sg))])
        | Err _ => Ok (a, [])
        | Panic => Panic
        end
    | m_early_check => maybe_start_early_aggregation W a
    | m_produced id data proof participants keys =>
        if bool_decide (ac_session a = Some id) then
          let! n' := apply_aggregated_group E n data proof keys in
          Ok (with_node a n', [fx_event (CeAggregate participants data); fx_publish_agg (mkSAgg data proof)])
        else Ok (a, [])
    end.
End Actor.
