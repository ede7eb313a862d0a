(** Model of crates/blockchain/src/store.rs: block import, fork-choice updates,
    ticks, gossip votes and attestation duty, over the database model and the
    in-memory votes and pools.

    States are read without the cache: C22 shows that the cache never changes
    what a read returns.  [Panic] stands for a panic and for a loop that never
    ends.  [u64] additions and multiplications do not overflow ([N]), except
    where the code saturates on purpose. *)
From Verif Require Export Storage ForkChoice Pools.

(** crates/common/types/src/constants.rs; crates/blockchain/src/lib.rs:80-87;
    store.rs:26 *)
Definition INTERVALS_PER_SLOT : N := 5.
Definition MILLISECONDS_PER_INTERVAL : N := 800.
Definition MILLISECONDS_PER_SLOT : N := 4000.
Definition GOSSIP_DISPARITY_INTERVALS : N := 1.
Definition JUSTIFICATION_LOOKBACK_SLOTS : nat := 3.
Definition MAX_REORG_DEPTH : N := 128.
(** crates/storage/src/store.rs: pool capacities *)
Definition AGGREGATED_PAYLOAD_CAP : N := 512.
Definition NEW_PAYLOAD_CAP : N := 64.
Definition GOSSIP_SIGNATURE_CAP : N := 2048.

(** Hash functions and cryptographic checks: oracles.
    - [e_key_ok]: [ValidatorPublicKey::from_bytes] succeeds on this key
    - [e_sig_ok]: [ValidatorSignature::from_bytes] succeeds
    - [e_sig_valid key slot root sig]: [signature.is_valid]
    - [e_agg_valid proof keys root slot]: [verify_aggregated_signature]
    - [e_block_valid proof keys bindings]: [verify_type_2_signature] *)
Record Env := mkEnv {
  e_state : State -> H256;
  e_header : Header -> H256;
  e_body : list AggAtt -> H256;
  e_data : AttestationData -> H256;
  e_key_ok : N -> bool;
  e_sig_ok : N -> bool;
  e_sig_valid : N -> N -> H256 -> N -> bool;
  e_agg_valid : N -> list N -> H256 -> N -> bool;
  e_block_valid : N -> list (list N) -> list (H256 * N) -> bool }.

(** A running node: database, fork-choice votes, the two payload pools and the
    gossip signature pool. *)
Record Node := mkNode {
  nd_db : Db;
  nd_votes : FcVotes;
  nd_new : Buf PayloadEntry;
  nd_known : Buf PayloadEntry;
  nd_gossip : Buf GossipEntry }.
Definition with_db (n : Node) (d : Db) : Node :=
  mkNode d (nd_votes n) (nd_new n) (nd_known n) (nd_gossip n).
Definition tab (n : Node) : Tables := db_tab (nd_db n).

(** crates/storage/src/store.rs:603-672, 771-781: a store over an initialised
    database starts with empty votes and pools. *)
Definition start_node (d : Db) : Node :=
  mkNode d (mkFc ∅ ∅) (buf_new NEW_PAYLOAD_CAP) (buf_new AGGREGATED_PAYLOAD_CAP)
    (buf_new GOSSIP_SIGNATURE_CAP).

(** An [expect]/[unwrap] on a returned error panics. *)
Definition expect {E E' A} (r : res E A) : res E' A :=
  match r with Ok a => Ok a | _ => Panic end.

(** crates/storage/src/store.rs:782-785 *)
Definition current_slot (d : Db) : N := db_time d / INTERVALS_PER_SLOT.

(** crates/storage/src/store.rs:998-1012 [get_live_chain], the iterator: root,
    (slot, parent).  Collected into a map by root; equal roots have equal slots
    in reachable databases. *)
Definition live_chain (t : Tables) : gmap H256 (N * H256) :=
  list_to_map (map (fun e : N * H256 * H256 => (e.1.2, (e.1.1, e.2))) (map_to_list (t_live t))).

(** crates/storage/src/store.rs:1015-1023 *)
Definition max_live_chain_slot (t : Tables) : option N :=
  map_fold (fun (k : N * H256) _ acc =>
    match acc with Some m => Some (N.max m k.1) | None => Some k.1 end) None (t_live t).

(** Votes: the fork-choice map's entries. *)
Definition known_votes (n : Node) : VoteEntries := map_to_list (fc_known (nd_votes n)).
Definition new_votes (n : Node) : VoteEntries := map_to_list (fc_new (nd_votes n)).

(** store.rs:190-204, the loop; the ancestor's slot is below the descendant's. *)
Fixpoint ancestor_walk (fuel : nat) (t : Tables) (anc : Checkpoint) (cur : H256) : option bool :=
  match get_header t cur with
  | None => Some false
  | Some h =>
      if h_slot h =? cp_slot anc then Some (cur =? cp_root anc)
      else if h_slot h <? cp_slot anc then Some false
      else match fuel with
           | O => None
           | S f => ancestor_walk f t anc (h_parent h)
           end
  end.

(** store.rs:179-207 *)
Definition checkpoint_is_ancestor (t : Tables) (anc desc : Checkpoint) (dh : Header) : option bool :=
  if cp_slot desc <=? cp_slot anc
  then Some ((cp_slot anc =? cp_slot desc) && (cp_root anc =? cp_root desc))
  else ancestor_walk (size (t_headers t)) t anc (h_parent dh).

(** The [StoreError]s of the vote checks, without payload. *)
Inductive VoteError :=
| UnknownSourceBlock | UnknownTargetBlock | UnknownHeadBlock
| SourceExceedsTarget | HeadOlderThanTarget
| SourceSlotMismatch | TargetSlotMismatch | HeadSlotMismatch
| SourceNotAncestorOfTarget | TargetNotAncestorOfHead | HeadNotDescendantOfFinalized
| AttestationSlotBeforeHead | AttestationTooFarInFuture
| MissingTargetState | ValidatorNotInState | PubkeyDecodingFailed
| SignatureDecodingFailed | SignatureVerificationFailed
| EmptyBits | AggregateVerificationFailed.

Definition saturating_mul (a b : N) : N := N.min (a * b) (two64 - 1).

(** store.rs:219-321 *)
Definition validate_attestation_data (d : Db) (a : AttestationData) : res VoteError unit :=
  let t := db_tab d in
  let src := ad_source a in let tgt := ad_target a in let hd := ad_head a in
  match get_header t (cp_root src) with
  | None => Err UnknownSourceBlock
  | Some sh =>
  match get_header t (cp_root tgt) with
  | None => Err UnknownTargetBlock
  | Some th =>
  match get_header t (cp_root hd) with
  | None => Err UnknownHeadBlock
  | Some hh =>
  if cp_slot tgt <? cp_slot src then Err SourceExceedsTarget
  else if cp_slot hd <? cp_slot tgt then Err HeadOlderThanTarget
  else if negb (h_slot sh =? cp_slot src) then Err SourceSlotMismatch
  else if negb (h_slot th =? cp_slot tgt) then Err TargetSlotMismatch
  else if negb (h_slot hh =? cp_slot hd) then Err HeadSlotMismatch
  else
  match checkpoint_is_ancestor t src tgt th with
  | None => Panic
  | Some false => Err SourceNotAncestorOfTarget
  | Some true =>
  match checkpoint_is_ancestor t tgt hd hh with
  | None => Panic
  | Some false => Err TargetNotAncestorOfHead
  | Some true =>
  match checkpoint_is_ancestor t (db_fin d) hd hh with
  | None => Panic
  | Some false => Err HeadNotDescendantOfFinalized
  | Some true =>
  if ad_slot a <? cp_slot hd then Err AttestationSlotBeforeHead
  else if db_time d + GOSSIP_DISPARITY_INTERVALS <? saturating_mul (ad_slot a) INTERVALS_PER_SLOT
  then Err AttestationTooFarInFuture
  else Ok tt
  end end end end end end.

(** store.rs:1233-1275, the loop: [depth] blocks walked so far. *)
Fixpoint reorg_walk (fuel : nat) (t : Tables) (cur : H256) (target_slot : N) (target : H256)
    (depth : N) : option N :=
  match fuel with
  | O => None
  | S f =>
      match get_header t cur with
      | None => None
      | Some h =>
          if h_slot h <=? target_slot
          then if cur =? target then None else Some depth
          else if MAX_REORG_DEPTH <=? depth + 1 then Some (depth + 1)
          else reorg_walk f t (h_parent h) target_slot target (depth + 1)
      end
  end.
(** store.rs:1233-1275; the loop runs at most 128 times. *)
Definition reorg_depth (t : Tables) (old new : H256) : option N :=
  if new =? old then None
  else
    match get_header t old, get_header t new with
    | Some oh, Some nh =>
        if h_slot oh <=? h_slot nh
        then reorg_walk 128 t new (h_slot oh) old 0
        else reorg_walk 128 t old (h_slot nh) new 0
    | _, _ => None
    end.

(** store.rs:769-779, at most three steps down towards the safe target. *)
Fixpoint lookback (n : nat) (t : Tables) (safe_slot : N) (r : H256) (h : Header)
  : res unit (H256 * Header) :=
  match n with
  | O => Ok (r, h)
  | S n' =>
      if safe_slot <? h_slot h then
        match get_header t (h_parent h) with
        | None => Panic
        | Some p => lookback n' t safe_slot (h_parent h) p
        end
      else Ok (r, h)
  end.
(** store.rs:787-795, down to a justifiable slot. *)
Fixpoint justifiable_walk (fuel : nat) (t : Tables) (fin : N) (r : H256) (h : Header)
  : res unit (H256 * Header) :=
  if (fin <? h_slot h) && negb (slot_is_justifiable_after (h_slot h) fin) then
    match fuel with
    | O => Panic
    | S f =>
        match get_header t (h_parent h) with
        | None => Panic
        | Some p => justifiable_walk f t fin (h_parent h) p
        end
    end
  else Ok (r, h).

(** store.rs:751-824 *)
Definition get_attestation_target_with_checkpoints (d : Db) (just fin : Checkpoint)
  : res unit Checkpoint :=
  let t := db_tab d in
  match get_header t (db_head d), get_header t (db_safe d) with
  | Some hh, Some sh =>
      let! x := lookback JUSTIFICATION_LOOKBACK_SLOTS t (h_slot sh) (db_head d) hh in
      let! y := justifiable_walk (size (t_headers t)) t (cp_slot fin) x.1 x.2 in
      if h_slot y.2 <? cp_slot just then Ok just
      else Ok (mkCp y.1 (h_slot y.2))
  | _, _ => Panic
  end.
(** store.rs:732-738 *)
Definition get_attestation_target (d : Db) : res unit Checkpoint :=
  get_attestation_target_with_checkpoints d (db_just d) (db_fin d).

(** store.rs:849-881 *)
Definition produce_attestation_data (d : Db) (slot : N) : res unit AttestationData :=
  let t := db_tab d in
  let head := db_head d in
  let! o := expect (read_state t head) in
  match o with
  | None => Panic
  | Some s =>
      let j := s_justified s in
      let source := if cp_root j =? ZERO then mkCp head (cp_slot j) else j in
      match get_header t head with
      | None => Panic
      | Some hh =>
          let! target := get_attestation_target d in
          Ok (mkAD slot (mkCp head (h_slot hh)) target source)
      end
  end.

(** The [StoreError]s of block import. *)
Inductive ImportError :=
| MissingParentState | BlockSlotGapTooLarge | BlockTooFarInFuture
| DuplicateAttestationData | ImportTooManyAttestationData
| AttesterIndexOutOfRange | ProposerIndexOutOfRange | BlockPubkeyDecodingFailed
| SlotOutOfRange | BlockProofVerificationFailed
| TransitionError (e : StfError).

(** crates/common/types/src/attestation.rs [SignedAttestation],
    [SignedAggregatedAttestation] *)
Record SignedAtt := mkSA { sa_validator : N; sa_data : AttestationData; sa_sig : N }.
Record SignedAgg := mkSAgg { sg_data : AttestationData; sg_proof : Proof_ }.

Definition two32 : N := 4294967296.

(** Duties run by a tick (store.rs:361-383). *)
Inductive SlotInterval :=
| BlockPublication | AttestationProduction | Aggregation | SafeTargetUpdate | EndOfSlot.
(** crates/blockchain/src/lib.rs:102-111 *)
Definition interval_of (intervals : N) : SlotInterval :=
  let i := intervals mod INTERVALS_PER_SLOT in
  if i =? 0 then BlockPublication
  else if i =? 1 then AttestationProduction
  else if i =? 2 then Aggregation
  else if i =? 3 then SafeTargetUpdate
  else EndOfSlot.

Section Node.
  Context (E : Env).
  Local Notation hash_state := (e_state E).
  Local Notation hash_header := (e_header E).
  Local Notation hash_body := (e_body E).
  Local Notation hash_data := (e_data E).

  (** crates/storage/src/store.rs:901-923, in memory: pruning of the pools *)
  Definition prune_pools (n : Node) (adv : option N) : res unit Node :=
    match adv with
    | None => Ok n
    | Some f =>
        let! g := gossip_prune f (nd_gossip n) in
        let! nw := payload_prune f (nd_new n) in
        let! k := payload_prune f (nd_known n) in
        Ok (mkNode (nd_db n) (nd_votes n) nw.1 k.1 g.1)
    end.

  (** crates/storage/src/store.rs:868-924 *)
  Definition update_checkpoints (n : Node) (head : H256) (just fin : option Checkpoint)
    : res unit Node :=
    let adv := finalization_advanced (nd_db n) fin in
    let! d1 := apply_checkpoints (nd_db n) head just fin in
    prune_pools (with_db n (prune_after d1 adv)) adv.

  (** store.rs:83-97: the finalized checkpoint of the new head's state, if its
      block is known. *)
  Definition head_finalized (t : Tables) (head : H256) : res unit (option Checkpoint) :=
    let! o := expect (read_state t head) in
    Ok (match o with
        | Some s => match get_header t (cp_root (s_finalized s)) with
                    | Some _ => Some (s_finalized s)
                    | None => None
                    end
        | None => None
        end).

  (** store.rs:66-78: the new head *)
  Definition ghost_head (n : Node) : res unit H256 :=
    match compute_lmd_ghost_head (cp_root (db_just (nd_db n))) (map_to_list (live_chain (tab n)))
            (known_votes n) 0 with
    | None => Panic
    | Some (h, _) => Ok h
    end.

  (** store.rs:65-137.  The reorg report ([reorg_depth]) only feeds metrics. *)
  Definition update_head (n : Node) : res unit Node :=
    let! h := ghost_head n in
    let! fin := head_finalized (tab n) h in
    expect (update_checkpoints n h None fin).

  (** store.rs:54-59 *)
  Definition accept_new_attestations (n : Node) : res unit Node :=
    let! p := payload_promote hash_data (nd_new n) (nd_known n) in
    update_head (mkNode (nd_db n) (promote hash_data (nd_votes n)) p.1 p.2 (nd_gossip n)).

  (** store.rs:150-171 *)
  Definition update_safe_target (n : Node) : res unit Node :=
    let! o := expect (read_state (tab n) (db_head (nd_db n))) in
    match o with
    | None => Panic
    | Some s =>
        match safe_target (lenN (s_validators s)) (cp_root (db_just (nd_db n)))
                (map_to_list (live_chain (tab n))) (new_votes n) with
        | None => Panic
        | Some r => Ok (with_db n (set_safe_target (nd_db n) r))
        end
    end.

  (** store.rs:347-384, one iteration: [last] is [is_final_tick]. *)
  Definition tick_once (n : Node) (has_proposal last : bool) : res unit Node :=
    let time := db_time (nd_db n) + 1 in
    let n1 := with_db n (set_time (nd_db n) time) in
    match interval_of time with
    | BlockPublication => if has_proposal && last then accept_new_attestations n1 else Ok n1
    | AttestationProduction | Aggregation => Ok n1
    | SafeTargetUpdate => update_safe_target n1
    | EndOfSlot => accept_new_attestations n1
    end.
  (** store.rs:346-385: [k] iterations left. *)
  Fixpoint tick_loop (k : nat) (n : Node) (has_proposal : bool) : res unit Node :=
    match k with
    | O => Ok n
    | S k' =>
        let! n' := tick_once n has_proposal (match k' with O => true | _ => false end) in
        tick_loop k' n' has_proposal
    end.
  (** store.rs:329-386 *)
  Definition on_tick (n : Node) (timestamp_ms : N) (has_proposal : bool) : res unit Node :=
    let time := (timestamp_ms - db_gt (nd_db n) * 1000) / MILLISECONDS_PER_INTERVAL in
    let n1 := if INTERVALS_PER_SLOT <? time - db_time (nd_db n)
              then with_db n (set_time (nd_db n) (time - INTERVALS_PER_SLOT)) else n in
    tick_loop (N.to_nat (time - db_time (nd_db n1))) n1 has_proposal.

  (** crates/storage/src/store.rs:1573-1586 *)
  Definition insert_new_aggregated_payload (n : Node) (a : AttestationData) (p : Proof_)
    : res unit Node :=
    let! b := payload_push hash_data (nd_new n) a p in
    Ok (mkNode (nd_db n) (record_new hash_data (nd_votes n) (pr_bits p) a) b (nd_known n) (nd_gossip n)).
  (** crates/storage/src/store.rs:1589-1601.  Simplified: entry by entry, the code
      records all votes first; the two parts do not interact. *)
  Fixpoint insert_new_batch (n : Node) (l : list (AttestationData * Proof_)) : res unit Node :=
    match l with
    | [] => Ok n
    | (a, p) :: l' => let! n' := insert_new_aggregated_payload n a p in insert_new_batch n' l'
    end.
  (** crates/blockchain/src/aggregation.rs:566-572 *)
  Definition apply_aggregated_group (n : Node) (a : AttestationData) (p : Proof_)
      (keys : list (N * H256)) : res unit Node :=
    let! n1 := insert_new_aggregated_payload n a p in
    let! g := gossip_delete (nd_gossip n1) keys in
    Ok (mkNode (nd_db n1) (nd_votes n1) (nd_new n1) (nd_known n1) g).

  (** store.rs:394-463 *)
  Definition on_gossip_attestation (n : Node) (sa : SignedAtt) (is_aggregator : bool)
    : res VoteError Node :=
    let a := sa_data sa in
    let! _ := validate_attestation_data (nd_db n) a in
    let! o := expect (read_state (tab n) (cp_root (ad_target a))) in
    match o with
    | None => Err MissingTargetState
    | Some ts =>
        match getN (s_validators ts) (sa_validator sa) with
        | None => Err ValidatorNotInState
        | Some v =>
            if negb (e_key_ok E (v_att_key v)) then Err PubkeyDecodingFailed
            else if two32 <=? ad_slot a then Panic
            else if negb (e_sig_ok E (sa_sig sa)) then Err SignatureDecodingFailed
            else if negb (e_sig_valid E (v_att_key v) (ad_slot a) (hash_data a) (sa_sig sa))
            then Err SignatureVerificationFailed
            else if is_aggregator then
              let! g := expect (gossip_insert hash_data (nd_gossip n) a (sa_validator sa) (sa_sig sa)) in
              Ok (mkNode (nd_db n) (nd_votes n) (nd_new n) (nd_known n) g)
            else Ok n
        end
    end.

  (** The attestation keys of validators [l], all in range. *)
  Fixpoint att_keys (vals : list Validator) (l : list N) : option (list N) :=
    match l with
    | [] => Some []
    | i :: l' =>
        match getN vals i, att_keys vals l' with
        | Some v, Some ks => Some (v_att_key v :: ks)
        | _, _ => None
        end
    end.

  (** store.rs:490-563 with [verify] set *)
  Definition on_gossip_aggregated_attestation (n : Node) (sg : SignedAgg) : res VoteError Node :=
    let a := sg_data sg in
    let! _ := validate_attestation_data (nd_db n) a in
    let! o := expect (read_state (tab n) (cp_root (ad_target a))) in
    match o with
    | None => Err MissingTargetState
    | Some ts =>
        let participants := validator_indices (pr_bits (sg_proof sg)) in
        match participants with
        | [] => Err EmptyBits
        | _ =>
            match att_keys (s_validators ts) participants with
            | None => Err ValidatorNotInState
            | Some keys =>
                if negb (forallb (e_key_ok E) keys) then Err PubkeyDecodingFailed
                else if two32 <=? ad_slot a then Panic
                else if negb (e_agg_valid E (pr_bytes (sg_proof sg)) keys (hash_data a) (ad_slot a))
                then Err AggregateVerificationFailed
                else expect (insert_new_aggregated_payload n a (sg_proof sg))
            end
        end
    end.

  (** store.rs:1174-1192, one attestation component; out-of-range participants
      were rejected before. *)
  Fixpoint components (vals : list Validator) (atts : list AggAtt)
    : res ImportError (list (list N) * list (H256 * N)) :=
    match atts with
    | [] => Ok ([], [])
    | a :: atts' =>
        match att_keys vals (validator_indices (at_bits a)) with
        | None => Err AttesterIndexOutOfRange
        | Some keys =>
            if negb (forallb (e_key_ok E) keys) then Err BlockPubkeyDecodingFailed
            else if two32 <=? ad_slot (at_data a) then Err SlotOutOfRange
            else
              let! r := components vals atts' in
              Ok (keys :: r.1, (hash_data (at_data a), ad_slot (at_data a)) :: r.2)
        end
    end.

  (** store.rs:1126-1225 *)
  Definition verify_block_signatures (s : State) (sb : SignedBlock) : res ImportError unit :=
    let b := sb_block sb in
    let vals := s_validators s in
    let n := lenN vals in
    if existsb (fun a => existsb (fun v => n <=? v) (validator_indices (at_bits a))) (b_atts b)
    then Err AttesterIndexOutOfRange
    else
      match getN vals (b_proposer b) with
      | None => Err ProposerIndexOutOfRange
      | Some pv =>
          let! c := components vals (b_atts b) in
          if negb (e_key_ok E (v_prop_key pv)) then Err BlockPubkeyDecodingFailed
          else if two32 <=? b_slot b then Err SlotOutOfRange
          else if e_block_valid E (sb_proof sb) (c.1 ++ [[v_prop_key pv]])
                    (c.2 ++ [(block_root hash_header hash_body b, b_slot b)])
          then Ok tt else Err BlockProofVerificationFailed
      end.

  (** store.rs:632-650: no attestation data occurs twice. *)
  Definition has_duplicate_data (atts : list AggAtt) : bool :=
    negb (bool_decide (NoDup (map at_data atts))).

  (** store.rs:588-663: the checks, then the post-state to store; [None] for a
      block whose state is already stored. *)
  Definition check_block (d : Db) (sb : SignedBlock) : res ImportError (option State) :=
    let b := sb_block sb in
    let t := db_tab d in
    if has_state t (block_root hash_header hash_body b) then Ok None
    else
      let! o := expect (read_state t (b_parent b)) in
      match o with
      | None => Err MissingParentState
      | Some parent =>
          if HISTORICAL_ROOTS_LIMIT <? b_slot b - s_slot parent then Err BlockSlotGapTooLarge
          else if current_slot d + 1 <? b_slot b then Err BlockTooFarInFuture
          else if has_duplicate_data (b_atts b) then Err DuplicateAttestationData
          else if MAX_ATTESTATIONS_DATA <? lenN (b_atts b) then Err ImportTooManyAttestationData
          else
            let! _ := verify_block_signatures parent sb in
            match state_transition hash_state hash_header hash_body parent b with
            | Ok post => Ok (Some (with_header post (set_state_root (s_header post) (b_state_root b))))
            | Err e => Err (TransitionError e)
            | Panic => Panic
            end
      end.

  (** store.rs:665-686 *)
  Definition import_justified (d : Db) (post : State) : res unit Db :=
    if cp_slot (db_just d) <? cp_slot (s_justified post)
    then apply_checkpoints d (db_head d) (Some (s_justified post)) None
    else Ok d.
  (** store.rs:688-691 *)
  Definition import_block (d : Db) (sb : SignedBlock) : Db :=
    with_tab d (insert_signed_block hash_body (db_tab d) (block_root hash_header hash_body (sb_block sb)) sb).
  (** store.rs:692-694 *)
  Definition import_state (d : Db) (sb : SignedBlock) (post : State) : res unit Db :=
    let! tc := insert_state hash_header (db_tab d) [] (block_root hash_header hash_body (sb_block sb)) post in
    Ok (with_tab d tc.1).
  (** crates/storage/src/store.rs:1467-1478 *)
  Definition record_block_votes (f : FcVotes) (atts : list AggAtt) : FcVotes :=
    fold_left (fun g a => record_known hash_data g (at_bits a) (at_data a)) atts f.

  (** store.rs:588-727 with [verify] set *)
  Definition on_block (n : Node) (sb : SignedBlock) : res ImportError Node :=
    let! o := check_block (nd_db n) sb in
    match o with
    | None => Ok n
    | Some post =>
        let! d1 := expect (import_justified (nd_db n) post) in
        let d2 := import_block d1 sb in
        let! d3 := expect (import_state d2 sb post) in
        expect (update_head (mkNode d3 (record_block_votes (nd_votes n) (b_atts (sb_block sb)))
                               (nd_new n) (nd_known n) (nd_gossip n)))
    end.

  (** The databases on disk after each commit of [on_block], in order: justified
      checkpoint, block, state, head, live-chain pruning.  A crash during the
      import leaves the initial one or one of these. *)
  Definition import_commits (n : Node) (sb : SignedBlock) : res ImportError (list Db) :=
    let! o := check_block (nd_db n) sb in
    match o with
    | None => Ok []
    | Some post =>
        let! d1 := expect (import_justified (nd_db n) post) in
        let d2 := import_block d1 sb in
        let! d3 := expect (import_state d2 sb post) in
        let n3 := mkNode d3 (record_block_votes (nd_votes n) (b_atts (sb_block sb)))
                    (nd_new n) (nd_known n) (nd_gossip n) in
        let! h := expect (ghost_head n3) in
        let! fin := expect (head_finalized (tab n3) h) in
        let! d4 := expect (apply_checkpoints d3 h None fin) in
        Ok [d1; d2; d3; d4; prune_after d4 (finalization_advanced d3 fin)]
    end.

  (** store.rs:887-898 *)
  Definition get_proposal_head (n : Node) (slot : N) : res unit (Node * H256) :=
    let! n1 := on_tick n (db_gt (nd_db n) * 1000 + slot * MILLISECONDS_PER_SLOT) true in
    let! n2 := accept_new_attestations n1 in
    Ok (n2, db_head (nd_db n2)).
End Node.
