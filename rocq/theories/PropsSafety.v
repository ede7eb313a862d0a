(** Accountable safety (C69).  Vocabulary: STFSpec.v (chains, votes that count,
    finalization) and Safety.v (votes included in blocks, offences, thirds). *)
From Verif Require Import SafetyExamples.
Local Open Scope N_scope.

(** Any two checkpoints justified on any two chains share a third of the voters. *)
Theorem C69_overlap hash_state hash_header hash_body gt vals s1 bs1 c1 s2 bs2 c2 :
  (forall h h', hash_header h = hash_header h' -> h = h') ->
  chain hash_state hash_header hash_body gt vals s1 bs1 ->
  chain hash_state hash_header hash_body gt vals s2 bs2 ->
  justified_checkpoint s1 c1 -> justified_checkpoint s2 c2 ->
  one_third (lenN vals) (fun v => included_vote_for bs1 c1 v /\ included_vote_for bs2 c2 v).
Proof. intros H. exact (overlap_pf hash_state hash_header hash_body gt vals H s1 bs1 c1 s2 bs2 c2). Qed.
Print Assumptions C69_overlap.

(** Two blocks of one slot are justified only if a third of the validators
    provably voted twice. *)
Theorem C69_same_slot hash_state hash_header hash_body gt vals s1 bs1 c1 s2 bs2 c2 :
  (forall h h', hash_header h = hash_header h' -> h = h') ->
  chain hash_state hash_header hash_body gt vals s1 bs1 ->
  chain hash_state hash_header hash_body gt vals s2 bs2 ->
  justified_checkpoint s1 c1 -> justified_checkpoint s2 c2 ->
  cp_slot c1 = cp_slot c2 -> c1 <> c2 ->
  one_third (lenN vals) (slashable (bs1 ++ bs2)).
Proof. intros H. exact (same_slot_pf hash_state hash_header hash_body gt vals H s1 bs1 c1 s2 bs2 c2). Qed.
Print Assumptions C69_same_slot.

Example C69_same_slot_nonvacuous :
  (forall h h', i_header h = i_header h' -> h = h') /\
  i_chain u2.1 u2.2 /\ justified_checkpoint u2.1 (tip u1) /\
  i_chain v2.1 v2.2 /\ justified_checkpoint v2.1 (tip v1) /\
  cp_slot (tip u1) = cp_slot (tip v1) /\ tip u1 <> tip v1.
Proof. exact (conj i_header_inj uv_justified). Qed.

(** Partial: two chains with a common part [bs0].  While [b1] is processed on the
    first, the attestation [a] finalizes its source [c], the first block finalized
    after the common part, and all included votes for the target of [a] have
    source [c].  The second chain, also without having finalized anything since,
    justifies a slot at or after [c]'s but does not contain [c].  Then a third of
    the validators provably broke the rules. *)
Theorem C69_first_finalization_partial hash_state hash_header hash_body gt vals
    s0 bs0 bs1 m1 b1 prev1 a post1 bs2 m2 b2 prev2 post2 t :
  let c := ad_source (at_data a) in
  (forall h h', hash_header h = hash_header h' -> h = h') ->
  lenN vals <= VALIDATOR_REGISTRY_LIMIT ->
  chain hash_state hash_header hash_body gt vals s0 bs0 ->
  in_block hash_state hash_header hash_body gt vals m1 (bs0 ++ bs1) b1 prev1 ->
  b_atts b1 = prev1 ++ a :: post1 ->
  cp_slot (s_finalized m1) = cp_slot (s_finalized s0) ->
  vote_counts m1 (at_data a) -> two_thirds (lenN vals) (voters_after m1 a) -> finalizes m1 a ->
  (forall v d, cast (bs0 ++ bs1 ++ [b1]) v d -> ad_target d = ad_target (at_data a) -> ad_source d = c) ->
  in_block hash_state hash_header hash_body gt vals m2 (bs0 ++ bs2) b2 prev2 ->
  b_atts b2 = prev2 ++ post2 ->
  cp_slot (s_finalized m2) = cp_slot (s_finalized s0) ->
  (cp_slot c, cp_root c) ∉ chain_entries hash_state hash_header hash_body gt vals (bs0 ++ bs2) ->
  cp_slot c <= t -> slot_justified m2 t ->
  one_third (lenN vals) (slashable (bs0 ++ bs1 ++ [b1] ++ bs2 ++ [b2])).
Proof.
  intros c H1 H2. exact (first_finalization_pf hash_state hash_header hash_body gt vals H1 H2
    s0 bs0 bs1 m1 b1 prev1 a post1 bs2 m2 b2 prev2 post2 t).
Qed.
Print Assumptions C69_first_finalization_partial.

(** Partial: the first blocks that two chains finalize after a common part do not
    conflict, unless a third of the validators provably broke the rules, or votes
    with different sources were added up for one target. *)
Theorem C69_two_finalizations_partial hash_state hash_header hash_body gt vals
    s0 bs0 bs1 m1 b1 prev1 a1 post1 bs2 m2 b2 prev2 a2 post2 :
  let c1 := ad_source (at_data a1) in
  let c2 := ad_source (at_data a2) in
  (forall h h', hash_header h = hash_header h' -> h = h') ->
  lenN vals <= VALIDATOR_REGISTRY_LIMIT ->
  chain hash_state hash_header hash_body gt vals s0 bs0 ->
  in_block hash_state hash_header hash_body gt vals m1 (bs0 ++ bs1) b1 prev1 ->
  b_atts b1 = prev1 ++ a1 :: post1 ->
  in_block hash_state hash_header hash_body gt vals m2 (bs0 ++ bs2) b2 prev2 ->
  b_atts b2 = prev2 ++ a2 :: post2 ->
  cp_slot (s_finalized m1) = cp_slot (s_finalized s0) ->
  cp_slot (s_finalized m2) = cp_slot (s_finalized s0) ->
  vote_counts m1 (at_data a1) -> two_thirds (lenN vals) (voters_after m1 a1) -> finalizes m1 a1 ->
  vote_counts m2 (at_data a2) -> two_thirds (lenN vals) (voters_after m2 a2) -> finalizes m2 a2 ->
  (forall v d, cast (bs0 ++ bs1 ++ [b1]) v d -> ad_target d = ad_target (at_data a1) -> ad_source d = c1) ->
  (forall v d, cast (bs0 ++ bs2 ++ [b2]) v d -> ad_target d = ad_target (at_data a2) -> ad_source d = c2) ->
  (cp_slot c1, cp_root c1) ∉ chain_entries hash_state hash_header hash_body gt vals (bs0 ++ bs2) ->
  (cp_slot c2, cp_root c2) ∉ chain_entries hash_state hash_header hash_body gt vals (bs0 ++ bs1) ->
  one_third (lenN vals) (slashable (bs0 ++ bs1 ++ [b1] ++ bs2 ++ [b2])).
Proof.
  intros c1 c2 H1 H2. exact (two_finalizations_pf hash_state hash_header hash_body gt vals H1 H2
    s0 bs0 bs1 m1 b1 prev1 a1 post1 bs2 m2 b2 prev2 a2 post2).
Qed.
Print Assumptions C69_two_finalizations_partial.

(** Slots 1 and 4 get finalized on two chains from genesis. *)
Example C69_two_finalizations_nonvacuous :
  i_in_block u_mid u2.2 u_blk [] /\ i_in_block w_mid w5.2 w_blk [] /\
  vote_counts u_mid (at_data u_att) /\ finalizes u_mid u_att /\
  vote_counts w_mid (at_data w_att) /\ finalizes w_mid w_att /\
  two_thirds 3 (voters_after u_mid u_att) /\ two_thirds 3 (voters_after w_mid w_att) /\
  (forall v d, cast ([] ++ u2.2 ++ [u_blk]) v d ->
     ad_target d = ad_target (at_data u_att) -> ad_source d = ad_source (at_data u_att)) /\
  (forall v d, cast ([] ++ w5.2 ++ [w_blk]) v d ->
     ad_target d = ad_target (at_data w_att) -> ad_source d = ad_source (at_data w_att)) /\
  (cp_slot (ad_source (at_data u_att)), cp_root (ad_source (at_data u_att))) ∉ i_entries ([] ++ w5.2) /\
  (cp_slot (ad_source (at_data w_att)), cp_root (ad_source (at_data w_att))) ∉ i_entries ([] ++ u2.2) /\
  (exists s, j_stf u2.1 u_blk = Ok s /\ s_finalized s = ad_source (at_data u_att)) /\
  (exists s, j_stf w5.1 w_blk = Ok s /\ s_finalized s = ad_source (at_data w_att)).
Proof.
  exact (conj u_in_block (conj w_in_block (conj (proj1 u_counts) (conj (proj2 u_counts)
    (conj (proj1 w_counts) (conj (proj2 w_counts) (conj (all3_two_thirds _ _ _) (conj (all3_two_thirds _ _ _)
    (conj u_single (conj w_single (conj (proj1 uw_conflict) (conj (proj2 uw_conflict)
    (conj u_finalize w_finalize))))))))))))).
Qed.

(** Missing, because false: the same for any two finalized blocks.  Which slots may
    be justified depends on what each chain has already finalized, so chains that
    differ in that can finalize conflicting blocks without a single offence, even
    with all validators voting for every target from one source. *)
Theorem C69_refuted :
  exists hash_state hash_header hash_body gt vals s1 bs1 s2 bs2,
    (forall h h', hash_header h = hash_header h' -> h = h') /\
    lenN vals <= VALIDATOR_REGISTRY_LIMIT /\
    chain hash_state hash_header hash_body gt vals s1 bs1 /\
    chain hash_state hash_header hash_body gt vals s2 bs2 /\
    (cp_slot (s_finalized s1), cp_root (s_finalized s1)) ∉
      chain_entries hash_state hash_header hash_body gt vals bs2 /\
    (cp_slot (s_finalized s2), cp_root (s_finalized s2)) ∉
      chain_entries hash_state hash_header hash_body gt vals bs1 /\
    (forall v, ~ slashable (bs1 ++ bs2) v).
Proof. exact safety_refuted_pf. Qed.
Print Assumptions C69_refuted.

Example C69_refuted_slots :
  cp_slot (s_finalized p17.1) = 12 /\ cp_slot (s_finalized q19.1) = 15 /\
  s_finalized p17.1 = tip p12 /\ s_finalized q19.1 = tip q15.
Proof. exact pq_finalized. Qed.
