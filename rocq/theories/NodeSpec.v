(** Vocabulary for the node properties. *)
From Verif Require Export Node STFSpec StorageSpec FCSpec PoolSpec.

Section NodeSpec.
  Context (E : Env).

  (** What can happen to a running node.  [ev_local] is the arrival of locally
      built aggregates together with the signatures they consume; [ev_pending]
      the arrival of a block whose parent's state is missing; [ev_propose] the
      preparation of a proposal; [ev_restart] the loss of everything in memory. *)
  Inductive node_event :=
  | ev_block (sb : SignedBlock)
  | ev_pending (sb : SignedBlock)
  | ev_tick (timestamp_ms : N) (has_proposal : bool)
  | ev_attestation (sa : SignedAtt) (is_aggregator : bool)
  | ev_aggregate (sg : SignedAgg)
  | ev_local (l : list (AttestationData * Proof_)) (keys : list (N * H256))
  | ev_propose (slot : N)
  | ev_prune
  | ev_restart.

  (** A rejected message leaves the node as it is. *)
  Definition keep {Er} (n : Node) (r : res Er Node) : res unit Node :=
    match r with Ok n' => Ok n' | Err _ => Ok n | Panic => Panic end.

  (** crates/blockchain/src/lib.rs:1010-1062: when a block is stored as pending *)
  Definition pends (n : Node) (b : Block) : bool :=
    (cp_slot (db_fin (nd_db n)) <? b_slot b) &&
    (saturating_mul (b_slot b) INTERVALS_PER_SLOT <=? db_time (nd_db n) + GOSSIP_DISPARITY_INTERVALS) &&
    negb (has_state (tab n) (b_parent b)).

  Definition node_step (n : Node) (e : node_event) : res unit Node :=
    match e with
    | ev_block sb => keep n (on_block E n sb)
    | ev_pending sb =>
        if pends n (sb_block sb)
        then Ok (with_db n (with_tab (nd_db n)
               (insert_pending_block (e_body E) (tab n) (block_root (e_header E) (e_body E) (sb_block sb)) sb)))
        else Ok n
    | ev_tick ts hp => on_tick E n ts hp
    | ev_attestation sa agg => keep n (on_gossip_attestation E n sa agg)
    | ev_aggregate sg => keep n (on_gossip_aggregated_attestation E n sg)
    | ev_local l keys =>
        let! n1 := insert_new_batch E n l in
        let! g := gossip_delete (nd_gossip n1) keys in
        Ok (mkNode (nd_db n1) (nd_votes n1) (nd_new n1) (nd_known n1) g)
    | ev_propose slot => let! x := get_proposal_head E n slot in Ok x.1
    | ev_prune => let! d := prune_old_data (nd_db n) in Ok (with_db n d)
    | ev_restart => Ok (start_node (nd_db n))
    end.

  Inductive node_run (n : Node) : list node_event -> Node -> Prop :=
  | nr_nil : node_run n [] n
  | nr_snoc es n1 e n2 :
      node_run n es n1 -> node_step n1 e = Ok n2 -> node_run n (es ++ [e]) n2.

  (** A valid anchor: the genesis state, or the state after some accepted blocks,
      as computed or as stored (with the state root in its latest header). *)
  Definition valid_anchor (gt : N) (vals : list Validator) (a : State) : Prop :=
    exists s bs, chain (e_state E) (e_header E) (e_body E) gt vals s bs /\
      (a = s \/ a = with_header s (filled_header (e_state E) s)).

  (** crates/storage/src/store.rs:1183-1202 on a store just made (bin/ethlambda/src/main.rs:751-754) *)
  Definition insert_anchor (n : Node) (sb : SignedBlock) : Node :=
    mkNode (import_block E (nd_db n) sb) (record_block_votes E (nd_votes n) (b_atts (sb_block sb)))
      (nd_new n) (nd_known n) (nd_gossip n).
  (** A node started on an empty database from anchor [a]: from the state alone, or
      from the state and the anchor block, which is then inserted with its proof
      (unless the node crashed in between). *)
  Definition started (a : State) (n : Node) : Prop := exists d,
    (from_anchor_state (e_state E) (e_header E) empty_tables a = Ok d /\ n = start_node d) \/
    exists sb, get_forkchoice_store (e_state E) (e_header E) (e_body E) empty_tables a (sb_block sb) = Ok d /\
      (n = start_node d \/ n = insert_anchor (start_node d) sb).

  (** Histories with crashes: only the first commits of an import or of a head
      update reach the disk, then the node restarts.  [P] says after which commits
      of an import it may crash.  [cr_clock]: a crash in the middle of a tick, after
      the clock was written. *)
  Inductive crash_run (P : nat -> Prop) (n : Node) : Node -> Prop :=
  | cr_start : crash_run P n n
  | cr_event n1 e n2 : crash_run P n n1 -> node_step n1 e = Ok n2 -> crash_run P n n2
  | cr_crash n1 sb ds k d :
      crash_run P n n1 -> import_commits E n1 sb = Ok ds -> ds !! k = Some d -> P k ->
      crash_run P n (start_node d)
  | cr_clock n1 t :
      crash_run P n n1 -> db_time (nd_db n1) <= t ->
      crash_run P n (start_node (set_time (nd_db n1) t))
  | cr_update n1 h fin d :
      crash_run P n n1 -> ghost_head n1 = Ok h -> head_finalized (tab n1) h = Ok fin ->
      apply_checkpoints (nd_db n1) h None fin = Ok d -> crash_run P n (start_node d).

  (** Nodes reached from a valid anchor. *)
  Definition reachable (gt : N) (vals : list Validator) (n : Node) : Prop :=
    exists a n0 es, valid_anchor gt vals a /\ started a n0 /\ node_run n0 es n.
End NodeSpec.

(** Assumptions on the block hash: no collisions, never zero. *)
Definition good_hash (hash_header : Header -> H256) : Prop :=
  (forall h h', hash_header h = hash_header h' -> h = h') /\ (forall h, hash_header h <> ZERO).

(** The clock fits the [u32] slots of the signature scheme. *)
Definition clock_fits (n : Node) : Prop := db_time (nd_db n) + 1 < 5 * two32.

(** No block is its own ancestor: block hashes can be ranked so that a header's
    hash comes after its parent's.  Stands for: a block's hash is fixed before
    any block naming it as parent can be made. *)
Definition acyclic_hash (hash_header : Header -> H256) : Prop :=
  exists rank : H256 -> N, forall h, rank (h_parent h) < rank (hash_header h).

(** Stored headers are stored under their hash. *)
Definition hashed (hash_header : Header -> H256) (t : Tables) : Prop :=
  forall r h, t_headers t !! r = Some h -> hash_header h = r.

(** [r] is checkpoint [c]'s block, or has it as an ancestor through stored blocks
    that are all above [c]'s slot. *)
Inductive reaches (t : Tables) (c : Checkpoint) : H256 -> Prop :=
| rc_here h : t_headers t !! cp_root c = Some h -> h_slot h = cp_slot c -> reaches t c (cp_root c)
| rc_step r h : t_headers t !! r = Some h -> cp_slot c < h_slot h -> reaches t c (h_parent h) -> reaches t c r.

(** Ancestor or equal, through stored headers. *)
Inductive ancestor (t : Tables) (a : H256) : H256 -> Prop :=
| an_refl h : t_headers t !! a = Some h -> ancestor t a a
| an_step r h : t_headers t !! r = Some h -> ancestor t a (h_parent h) -> ancestor t a r.

(** Parent links between stored headers decrease in slot. *)
Definition headers_decrease (t : Tables) : Prop :=
  forall r h p, t_headers t !! r = Some h -> t_headers t !! h_parent h = Some p -> h_slot p < h_slot h.

(** Block [c] is stored with the slot its checkpoint claims. *)
Definition stored_at (t : Tables) (c : Checkpoint) : Prop :=
  exists h, t_headers t !! cp_root c = Some h /\ h_slot h = cp_slot c.

(** The rules for an acceptable vote. *)
Record vote_ok (d : Db) (a : AttestationData) : Prop := {
  vo_source : stored_at (db_tab d) (ad_source a);
  vo_target : stored_at (db_tab d) (ad_target a);
  vo_head : stored_at (db_tab d) (ad_head a);
  vo_source_target : reaches (db_tab d) (ad_source a) (cp_root (ad_target a));
  vo_target_head : reaches (db_tab d) (ad_target a) (cp_root (ad_head a));
  vo_finalized : reaches (db_tab d) (db_fin d) (cp_root (ad_head a));
  vo_slot : cp_slot (ad_head a) <= ad_slot a;
  vo_time : ad_slot a * 5 <= db_time d + 1 }.

(** [r] is [k] parent links above [x]. *)
Fixpoint nth_ancestor (t : Tables) (k : nat) (x : H256) : option H256 :=
  match k with
  | O => Some x
  | S k' => match t_headers t !! x with
            | Some h => nth_ancestor t k' (h_parent h)
            | None => None
            end
  end.

(** The first [k] blocks going up from [x] ([x] included) are stored and above
    slot [s]. *)
Definition above_for (t : Tables) (s : N) (x : H256) (k : nat) : Prop :=
  forall j, (j < k)%nat -> exists r h, nth_ancestor t j x = Some r /\ t_headers t !! r = Some h /\ s < h_slot h.

(** Going up from [hi] to the first block not above [lo]'s slot takes [d] blocks
    and misses [lo]. *)
Definition leaves_out (t : Tables) (hi lo : H256) (d : nat) : Prop :=
  exists hl r h, t_headers t !! lo = Some hl /\ above_for t (h_slot hl) hi d /\
    nth_ancestor t d hi = Some r /\ t_headers t !! r = Some h /\ h_slot h <= h_slot hl /\ r <> lo.
(** There are at least 128 blocks above [lo]'s slot. *)
Definition too_long (t : Tables) (hi lo : H256) : Prop :=
  exists hl, t_headers t !! lo = Some hl /\ above_for t (h_slot hl) hi 128.

(** The head with the larger slot (the new one on a tie) and the other one. *)
Definition higher_lower (t : Tables) (old new hi lo : H256) : Prop :=
  exists ho hn, t_headers t !! old = Some ho /\ t_headers t !! new = Some hn /\
    ((h_slot ho <= h_slot hn /\ hi = new /\ lo = old) \/ (h_slot hn < h_slot ho /\ hi = old /\ lo = new)).

(** The duty of interval [i]: it sets the clock, accepts the pending votes in the
    last interval of a slot (in the first one only when proposing) and updates the
    safe target in the fourth. *)
Definition duty (E : Env) (n : Node) (i : N) (propose : bool) : res unit Node :=
  let n1 := with_db n (set_time (nd_db n) i) in
  if i mod 5 =? 4 then accept_new_attestations E n1
  else if i mod 5 =? 3 then update_safe_target n1
  else if (i mod 5 =? 0) && propose then accept_new_attestations E n1
  else Ok n1.
(** The duties of [k] intervals starting with [i]; a proposal only in the last. *)
Fixpoint duties (E : Env) (n : Node) (i : N) (k : nat) (propose : bool) : res unit Node :=
  match k with
  | O => Ok n
  | S k' =>
      let! n1 := duty E n i (propose && bool_decide (k' = O)) in
      duties E n1 (i + 1) k' propose
  end.

(** *** Attestation duty *)
(** Slot of a stored block, as a relation. *)
Definition has_slot (t : Tables) (r : H256) (s : N) : Prop :=
  exists h, t_headers t !! r = Some h /\ h_slot h = s.

(** [x] is the head or one of its first three ancestors: the first at or below the
    safe target's slot, or the third ancestor. *)
Definition lookback_block (d : Db) (x : H256) : Prop :=
  exists i ss sx, (i <= 3)%nat /\ has_slot (db_tab d) (db_safe d) ss /\
    nth_ancestor (db_tab d) i (db_head d) = Some x /\ has_slot (db_tab d) x sx /\
    above_for (db_tab d) ss (db_head d) i /\ (i = 3%nat \/ sx <= ss).

(** [y], at slot [sy], is [x] or its nearest ancestor whose slot may be justified,
    or is not above the finalized slot. *)
Definition justifiable_below (d : Db) (x y : H256) (sy : N) : Prop :=
  let ok s := slot_is_justifiable_after s (cp_slot (db_fin d)) = true in
  exists j, nth_ancestor (db_tab d) j x = Some y /\ has_slot (db_tab d) y sy /\
    (sy <= cp_slot (db_fin d) \/ ok sy) /\
    forall i, (i < j)%nat -> exists z sz, nth_ancestor (db_tab d) i x = Some z /\
      has_slot (db_tab d) z sz /\ cp_slot (db_fin d) < sz /\ ~ ok sz.

(** Passing the checks: everything that is required of an imported block. *)
Record import_gates (E : Env) (d : Db) (sb : SignedBlock) (parent : State) : Prop := {
  ig_parent : read_state (db_tab d) (b_parent (sb_block sb)) = Ok (Some parent);
  ig_gap : b_slot (sb_block sb) - s_slot parent <= HISTORICAL_ROOTS_LIMIT;
  ig_time : b_slot (sb_block sb) <= db_time d / 5 + 1;
  ig_no_dup : NoDup (map at_data (b_atts (sb_block sb)));
  ig_few : lenN (b_atts (sb_block sb)) <= 8;
  ig_signed : exists keys prop,
    (* the keys checked are those of exactly the participants *)
    Forall2 (fun a ks => ks = omap (fun v => v_att_key <$> s_validators parent !! N.to_nat v)
                                   (validator_indices (at_bits a))
                         /\ length ks = length (validator_indices (at_bits a)))
            (b_atts (sb_block sb)) keys /\
    s_validators parent !! N.to_nat (b_proposer (sb_block sb)) = Some prop /\
    Forall (Forall (fun k => e_key_ok E k = true)) (keys ++ [[v_prop_key prop]]) /\
    Forall (fun a => ad_slot (at_data a) < two32) (b_atts (sb_block sb)) /\
    b_slot (sb_block sb) < two32 /\
    e_block_valid E (sb_proof sb) (keys ++ [[v_prop_key prop]])
      (map (fun a => (e_data E (at_data a), ad_slot (at_data a))) (b_atts (sb_block sb))
       ++ [(block_root (e_header E) (e_body E) (sb_block sb), b_slot (sb_block sb))]) = true }.

(** The pushes of everything in a payload pool, in queue order. *)
Definition all_pushes (b : Buf PayloadEntry) : list pool_op :=
  concat (map (fun r => match bf_data b !! r with
                        | Some e => map (Push (pe_data e)) (pe_proofs e)
                        | None => []
                        end) (bf_order b)).
