(** Proposing blocks: the property theorems C37 and C38.  Statements use the
    operations of Builder.v and the vocabulary of BuilderSpec.v. *)
From Verif Require Import BuilderExamples.

(** ** C37 produced blocks are importable *)

(** What is in a built block: its fields, at most eight data and at most the
    configured number, none twice, each with participants from the pool; the
    state transition accepts it. *)
Theorem C37_shape E P iter s slot proposer parent known pool pc b proofs cps :
  (forall d, an_order (iter d)) -> keyed E pool ->
  build_block E P iter s slot proposer parent known pool pc = Ok (b, proofs, cps) ->
  b_slot b = slot /\ b_proposer b = proposer /\ b_parent b = parent /\
  lenN (b_atts b) <= N.min (pc_max pc) 8 /\ NoDup (map at_data (b_atts b)) /\
  Forall2 (packed pool pc) (b_atts b) proofs /\
  exists post, state_transition (e_state E) (e_header E) (e_body E) s b = Ok post /\
    cps = (s_justified post, s_finalized post).
Proof. intros H. exact (C37_shape_pf E P iter H s slot proposer parent known pool pc b proofs cps). Qed.
Print Assumptions C37_shape.

(** A proposer whose turn it is succeeds: it produces and assembles a block on its
    head, and every reachable node that holds the same parent state and whose
    clock is at most one slot behind imports it. *)
Theorem C37_importable E P iter gt vals n n1 h sl slot vid v pool pc :
  (forall d, an_order (iter d)) ->
  good_hash (e_header E) -> lenN vals <= VALIDATOR_REGISTRY_LIMIT -> inj_data E ->
  complete_prover E P -> reachable_sound E gt vals n ->
  get_proposal_head E n slot = Ok (n1, h) -> has_slot (tab n1) h sl -> sl < slot -> slot <= HISTORICAL_ROOTS_LIMIT ->
  is_proposer vid slot (lenN vals) = true -> vals !! N.to_nat vid = Some v -> can_sign E P vid (v_prop_key v) ->
  pool ≡ₚ map_to_list (bf_data (nd_known n1)) ->
  exists b proofs cps sb, produce_block E P iter n1 slot vid pool pc = Ok (b, proofs, cps) /\
    assemble E P vals slot vid b proofs = Some sb /\ sb_block sb = b /\
    b_slot b = slot /\ b_proposer b = vid /\ b_parent b = h /\
    forall n2, reachable E gt vals n2 -> read_state (tab n2) h = read_state (tab n1) h ->
      slot <= db_time (nd_db n2) / 5 + 1 ->
      exists n3, on_block E n2 sb = Ok n3 /\
        has_state (tab n3) (block_root (e_header E) (e_body E) b) = true.
Proof. intros H1 H2 H3 H4. exact (C37_importable_pf E P iter H1 gt vals H2 H3 H4 n n1 h sl slot vid v pool pc). Qed.
Print Assumptions C37_importable.

(** The order in which the pool is read does not matter. *)
Theorem C37_order E P iter s slot proposer parent known pool pool' pc :
  NoDup (map fst pool) -> pool ≡ₚ pool' ->
  build_block E P iter s slot proposer parent known pool pc = build_block E P iter s slot proposer parent known pool' pc.
Proof. exact (C37_order_pf E P iter s slot proposer parent known pool pool' pc). Qed.
Print Assumptions C37_order.

Example C37_nonvacuous :
  (forall d, an_order (x_iter d)) /\ good_hash (e_header xp) /\ lenN xp_vals <= VALIDATOR_REGISTRY_LIMIT /\
  inj_data xp /\ complete_prover xp xpv /\ reachable_sound xp 1000 xp_vals xp_n1 /\
  (exists h, get_proposal_head xp xp_n1 3 = Ok (xp_n2, h) /\ has_slot (tab xp_n2) h 1) /\
  is_proposer 3 3 (lenN xp_vals) = true /\
  can_sign xp xpv 3 (v_prop_key (nth 3 xp_vals (mkVal 0 0 0))) /\
  xp_shape (mkPC true 8) = Some ([([true; true; true], 1)], [mkProof [true; true; true] 7], 1) /\
  xp_shape (mkPC false 8) = Some ([([true; true], 1)], [mkProof [true; true] 7], 0).
Proof.
  exact (conj x_iter_order (conj xp_good (conj xp_vals_few (conj xp_inj (conj xpv_complete (conj xp_reach
    (conj xp_prepare (conj eq_refl (conj xp_can_sign (conj xp_shape_agg xp_shape_one)))))))))).
Qed.

(** ** C38 the greedy choice of proofs *)

(** The proposer's choice, whatever the iteration order of the hash set: entries
    of the list, none twice; each adds a validator the earlier ones do not cover
    and none would have added more; together they cover all that the list covers. *)
Theorem C38_greedy iter proofs :
  an_order iter ->
  let sel := greedy_proofs iter proofs in
  (exists is, NoDup is /\ Forall2 (fun i p => proofs !! i = Some p) is sel) /\
  (forall k p, sel !! k = Some p -> exists v, adds (take k sel) p v) /\
  (forall k p q n m, sel !! k = Some p -> q ∈ proofs ->
     counts n (adds (take k sel) q) -> counts m (adds (take k sel) p) -> n <= m) /\
  (forall v, covered_by sel v <-> covered_by proofs v).
Proof. exact (C38_greedy_pf iter proofs). Qed.
Print Assumptions C38_greedy.

(** Combined bit lists mark exactly the participants of either. *)
Theorem C38_union a b i :
  union_bits a b !! i = Some true <-> a !! i = Some true \/ b !! i = Some true.
Proof. exact (union_bits_lookup a b i). Qed.
Print Assumptions C38_union.

Example C38_nonvacuous :
  let p := mkProof [true; true] 1 in let q := mkProof [false; true; true; true] 2 in
  let r := mkProof [false; true; true] 3 in
  greedy_proofs (fun _ l => l) [p; r; q] = [q; p] /\
  greedy_proofs (fun _ l => rev l) [p; mkProof [true; false; true] 4; r] = [p; mkProof [true; false; true] 4] /\
  greedy_proofs (fun _ l => l) [p; mkProof [true; false; true] 4; r] = [r; mkProof [true; false; true] 4].
Proof. vm_compute. repeat split. Qed.
