(** The votes in a proposed block: the property theorems C62.  Statements use the
    operations of Builder.v, Node.v and STF.v and the vocabulary of Packing.v. *)
From Verif Require Import PackingExamples.

(** ** C62 the votes in a proposed block count *)

(** With aggregation at the proposer: each vote of a produced block carries all the
    votes the node holds for its data, and when the block is imported it records a
    new vote at its place (or is a vote of the first slots for the genesis block). *)
Theorem C62_counts_partial E P iter gt vals n s slot vid pool pc b proofs cps pre a post :
  (forall d, an_order (iter d)) ->
  good_hash (e_header E) -> lenN vals <= VALIDATOR_REGISTRY_LIMIT -> inj_data E ->
  reachable_sound E gt vals n -> pool ≡ₚ map_to_list (bf_data (nd_known n)) -> pc_aggregate pc = true ->
  produce_block E P iter n slot vid pool pc = Ok (b, proofs, cps) ->
  read_state (tab n) (db_head (nd_db n)) = Ok (Some s) ->
  b_atts b = pre ++ a :: post ->
  exists mid, at_vote E s b pre mid /\ full_vote pool a /\ (self_vote a \/ useful mid a).
Proof. exact (C62_counts_pf E P iter gt vals n s slot vid pool pc b proofs cps pre a post). Qed.
Print Assumptions C62_counts_partial.

(** And no vote that the node holds and left for later, on a block of its fork
    choice, is preferable at that place. *)
Theorem C62_best_partial E P iter gt vals n s slot vid pool pc b proofs cps pre a post mid a' :
  (forall d, an_order (iter d)) ->
  good_hash (e_header E) -> lenN vals <= VALIDATOR_REGISTRY_LIMIT -> inj_data E ->
  reachable_sound E gt vals n -> pool ≡ₚ map_to_list (bf_data (nd_known n)) -> pc_aggregate pc = true ->
  produce_block E P iter n slot vid pool pc = Ok (b, proofs, cps) ->
  read_state (tab n) (db_head (nd_db n)) = Ok (Some s) ->
  b_atts b = pre ++ a :: post -> at_vote E s b pre mid ->
  full_vote pool a' -> is_live n (cp_root (ad_head (at_data a'))) -> at_data a' ∉ map at_data pre -> useful mid a' ->
  (self_vote a -> ~ reaches_quorum mid a') /\ (~ self_vote a -> ~ better mid a' a).
Proof. exact (C62_best_pf E P iter gt vals n s slot vid pool pc b proofs cps pre a post mid a'). Qed.
Print Assumptions C62_best_partial.

(** A block with room left: none of the other votes the node holds for blocks of
    its fork choice would record anything. *)
Theorem C62_full_partial E P iter gt vals n s slot vid pool pc b proofs cps mid a' :
  (forall d, an_order (iter d)) ->
  good_hash (e_header E) -> lenN vals <= VALIDATOR_REGISTRY_LIMIT -> inj_data E ->
  reachable_sound E gt vals n -> pool ≡ₚ map_to_list (bf_data (nd_known n)) -> pc_aggregate pc = true ->
  produce_block E P iter n slot vid pool pc = Ok (b, proofs, cps) ->
  read_state (tab n) (db_head (nd_db n)) = Ok (Some s) ->
  lenN (b_atts b) < N.min (pc_max pc) 8 -> at_vote E s b (b_atts b) mid ->
  full_vote pool a' -> is_live n (cp_root (ad_head (at_data a'))) -> at_data a' ∉ map at_data (b_atts b) ->
  ~ useful mid a'.
Proof. exact (C62_full_pf E P iter gt vals n s slot vid pool pc b proofs cps mid a'). Qed.
Print Assumptions C62_full_partial.

(** Without aggregation at the proposer one of the chosen proofs for the data is
    kept: the one adding most voters that neither the head state nor the votes before
    it in the block have, of these one with most participants. *)
Theorem C62_one_proof E P iter gt vals n s slot vid pool pc b proofs cps pre a post p :
  (forall d, an_order (iter d)) ->
  good_hash (e_header E) -> lenN vals <= VALIDATOR_REGISTRY_LIMIT ->
  reachable_sound E gt vals n -> pool ≡ₚ map_to_list (bf_data (nd_known n)) -> pc_aggregate pc = false ->
  produce_block E P iter n slot vid pool pc = Ok (b, proofs, cps) ->
  read_state (tab n) (db_head (nd_db n)) = Ok (Some s) ->
  b_atts b = pre ++ a :: post -> proofs !! length pre = Some p ->
  exists r e, (r, e) ∈ pool /\ pe_data e = at_data a /\ at_bits a = pr_bits p /\
    p ∈ greedy_proofs (iter (at_data a)) (pe_proofs e) /\
    forall q n m, q ∈ greedy_proofs (iter (at_data a)) (pe_proofs e) ->
      counts n (fresh_voter s pre (at_data a) q) -> counts m (fresh_voter s pre (at_data a) p) ->
      n <= m /\ (n = m -> forall j k, counts j (fun v => takes_part v q) -> counts k (fun v => takes_part v p) -> j <= k).
Proof. exact (C62_one_proof_pf E P iter gt vals n s slot vid pool pc b proofs cps pre a post p). Qed.
Print Assumptions C62_one_proof.

(** Without aggregation at the proposer (one proof per data) it fails: a vote whose
    source the block was expected to justify is included and counts for nothing. *)
Theorem C62_refuted :
  exists E P iter gt vals n s slot vid pool pc b proofs cps pre a post mid,
    (forall d, an_order (iter d)) /\
    good_hash (e_header E) /\ lenN vals <= VALIDATOR_REGISTRY_LIMIT /\ inj_data E /\
    reachable_sound E gt vals n /\ pool ≡ₚ map_to_list (bf_data (nd_known n)) /\
    produce_block E P iter n slot vid pool pc = Ok (b, proofs, cps) /\
    read_state (tab n) (db_head (nd_db n)) = Ok (Some s) /\
    b_atts b = pre ++ a :: post /\ at_vote E s b pre mid /\ ~ self_vote a /\ ~ useful mid a.
Proof. exact C62_refuted_pf. Qed.
Print Assumptions C62_refuted.

Example C62_nonvacuous :
  (forall d, an_order (x_iter d)) /\ good_hash (e_header xp) /\ lenN xp_vals <= VALIDATOR_REGISTRY_LIMIT /\
  inj_data xp /\ reachable_sound xp 1000 xp_vals xk_n /\ xk_pool ≡ₚ map_to_list (bf_data (nd_known xk_n)) /\
  read_state (tab xk_n) (db_head (nd_db xk_n)) = Ok (Some xk_head) /\
  xk_shape (mkPC true 8) = Some ([([true; true; true], 1); ([true; true], 2); ([false; false; true], 3)], (2, 1)) /\
  xk_shape (mkPC false 8) = Some ([([true; true], 1); ([true; true], 2); ([false; false; true], 3)], (0, 0)).
Proof.
  exact (conj x_iter_order (conj xp_good (conj xp_vals_few (conj xp_inj (conj xk_reach
    (conj (Permutation_refl _) (conj xk_read (conj xk_shape_agg xk_shape_one)))))))).
Qed.
