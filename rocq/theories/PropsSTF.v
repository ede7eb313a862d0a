(** State transition: the property theorems C01-C14.  Statements use the data
    types, [state_transition]/[process_attestations] and the vocabulary of
    STFSpec.v only.  Hash functions are universally quantified. *)
From Verif Require Import STFMore.

(** ** C01 round-robin proposer *)
Theorem C01_proposer_schedule :
  (forall v slot n, is_proposer v slot n = true <-> 0 < n /\ v = slot mod n) /\
  (forall slot n, 0 < n -> exists! v, v < n /\ is_proposer v slot n = true).
Proof. exact C01_proposer_schedule_pf. Qed.
Print Assumptions C01_proposer_schedule.

Theorem C01_only_proposer_accepted hash_state hash_header hash_body s b s' :
  state_transition hash_state hash_header hash_body s b = Ok s' ->
  is_proposer (b_proposer b) (b_slot b) (lenN (s_validators s)) = true.
Proof. exact (C01_only_proposer_accepted_pf hash_state hash_header hash_body s b s'). Qed.
Print Assumptions C01_only_proposer_accepted.

Example C01_example : is_proposer 2 17 5 = true /\ is_proposer 3 17 5 = false /\ is_proposer 0 4 0 = false.
Proof. vm_compute. done. Qed.

(** ** C02 accepted blocks are linked to pre- and post-state *)
Theorem C02_block_linkage hash_state hash_header hash_body s b s' :
  state_transition hash_state hash_header hash_body s b = Ok s' ->
  s_slot s < b_slot b /\ h_slot (s_header s) < b_slot b /\
  b_parent b = hash_header (filled_header hash_state s) /\
  b_state_root b = hash_state s' /\
  s_slot s' = b_slot b /\
  s_header s' = mkHeader (b_slot b) (b_proposer b) (b_parent b) ZERO (hash_body (b_atts b)) /\
  s_genesis_time s' = s_genesis_time s /\ s_validators s' = s_validators s.
Proof. exact (C02_block_linkage_pf hash_state hash_header hash_body s b s'). Qed.
Print Assumptions C02_block_linkage.

(** ** C03 history *)
Theorem C03_history hash_state hash_header hash_body gt vals s bs :
  chain hash_state hash_header hash_body gt vals s bs ->
  lenN (s_hist s) = s_slot s /\
  s_slot s = match last bs with Some b => b_slot b | None => 0 end /\
  lenN (s_hist s) <= HISTORICAL_ROOTS_LIMIT /\
  (forall t r, (t, r) ∈ chain_entries hash_state hash_header hash_body gt vals bs ->
     t < s_slot s -> root_at s t = Some r) /\
  (forall t, t < s_slot s ->
     (forall r, (t, r) ∉ chain_entries hash_state hash_header hash_body gt vals bs) ->
     root_at s t = Some ZERO).
Proof. exact (C03_history_pf hash_state hash_header hash_body gt vals s bs). Qed.
Print Assumptions C03_history.

Theorem C03_append_only hash_state hash_header hash_body gt vals s bs b s' :
  chain hash_state hash_header hash_body gt vals s bs ->
  state_transition hash_state hash_header hash_body s b = Ok s' ->
  exists added, s_hist s' = s_hist s ++ added /\ added <> [].
Proof. exact (C03_append_only_pf hash_state hash_header hash_body gt vals s bs b s'). Qed.
Print Assumptions C03_append_only.

Example C03_example :
  t_chain 1000 (toy_vals 3) ex_state ex_blocks /\ s_slot ex_state = 6 /\
  root_at ex_state 4 = Some ZERO /\ length ex_blocks = 5%nat.
Proof. split; [exact ex_chain|]. vm_compute. done. Qed.

(** ** C04 monotonicity *)
Theorem C04_monotone hash_state hash_header hash_body gt vals s bs s' bs' :
  chain hash_state hash_header hash_body gt vals s bs ->
  chain hash_state hash_header hash_body gt vals s' (bs ++ bs') ->
  cp_slot (s_justified s) <= cp_slot (s_justified s') /\
  cp_slot (s_finalized s) <= cp_slot (s_finalized s').
Proof. exact (chain_mono hash_state hash_header hash_body gt vals s bs s' bs'). Qed.
Print Assumptions C04_monotone.

Theorem C04_ordered hash_state hash_header hash_body gt vals s bs :
  chain hash_state hash_header hash_body gt vals s bs ->
  cp_slot (s_finalized s) <= cp_slot (s_justified s) /\
  (cp_slot (s_justified s) < s_slot s \/ (cp_slot (s_justified s) = 0 /\ s_slot s = 0)).
Proof. exact (chain_order hash_state hash_header hash_body gt vals s bs). Qed.
Print Assumptions C04_ordered.

Example C04_example :
  cp_slot (s_finalized ex_state) = 2 /\ cp_slot (s_justified ex_state) = 3.
Proof. vm_compute. done. Qed.

(** ** C05 checkpoints lie on the chain *)
Theorem C05_checkpoints_on_chain hash_state hash_header hash_body gt vals s bs :
  chain hash_state hash_header hash_body gt vals s bs -> bs <> [] ->
  let entries := chain_entries hash_state hash_header hash_body gt vals bs in
  (cp_slot (s_finalized s), cp_root (s_finalized s)) ∈ entries /\
  (cp_slot (s_justified s), cp_root (s_justified s)) ∈ entries /\
  root_at s (cp_slot (s_finalized s)) = Some (cp_root (s_finalized s)) /\
  root_at s (cp_slot (s_justified s)) = Some (cp_root (s_justified s)) /\
  (genesis_root hash_state hash_header hash_body gt vals <> ZERO ->
     cp_root (s_finalized s) <> ZERO /\ cp_root (s_justified s) <> ZERO).
Proof. exact (chain_checkpoints hash_state hash_header hash_body gt vals s bs). Qed.
Print Assumptions C05_checkpoints_on_chain.

Example C05_example :
  ex_blocks <> [] /\
  genesis_root toy_state toy_header toy_body 1000 (toy_vals 3) <> ZERO /\
  root_at ex_state 2 = Some (cp_root (s_finalized ex_state)).
Proof. vm_compute. done. Qed.

(** ** C06 justification needs two thirds of distinct validators *)
Theorem C06_justified_has_supermajority hash_state hash_header hash_body gt vals s bs :
  chain hash_state hash_header hash_body gt vals s bs ->
  (forall t, cp_slot (s_finalized s) < t -> slot_justified s t ->
     exists r, root_at s t = Some r /\ r <> ZERO /\
       two_thirds (lenN vals) (included_vote s bs r)) /\
  (0 < cp_slot (s_justified s) ->
     two_thirds (lenN vals) (included_vote s bs (cp_root (s_justified s)))) /\
  (0 < cp_slot (s_finalized s) ->
     two_thirds (lenN vals) (included_vote s bs (cp_root (s_finalized s)))).
Proof. exact (chain_supermajority hash_state hash_header hash_body gt vals s bs). Qed.
Print Assumptions C06_justified_has_supermajority.

(** Same, when no two blocks of the chain have the same root: the votes name
    exactly the justified checkpoint (root and slot). *)
Theorem C06_justified_exact_target hash_state hash_header hash_body gt vals s bs :
  chain hash_state hash_header hash_body gt vals s bs ->
  NoDup (map snd (chain_entries hash_state hash_header hash_body gt vals bs)) ->
  (forall t, cp_slot (s_finalized s) < t -> slot_justified s t ->
     exists r, root_at s t = Some r /\ r <> ZERO /\
       two_thirds (lenN vals) (included_vote_for bs (mkCp r t))) /\
  (0 < cp_slot (s_justified s) -> two_thirds (lenN vals) (included_vote_for bs (s_justified s))) /\
  (0 < cp_slot (s_finalized s) -> two_thirds (lenN vals) (included_vote_for bs (s_finalized s))).
Proof. exact (chain_supermajority_exact hash_state hash_header hash_body gt vals s bs). Qed.
Print Assumptions C06_justified_exact_target.

Example C06_example :
  t_chain 1000 (toy_vals 3) ex_state ex_blocks /\
  NoDup (map snd (chain_entries toy_state toy_header toy_body 1000 (toy_vals 3) ex_blocks)) /\
  slot_justified ex_state 3 /\ cp_slot (s_finalized ex_state) < 3 /\
  0 < cp_slot (s_finalized ex_state).
Proof. split; [exact ex_chain|]. split; [exact ex_roots_distinct|]. vm_compute. done. Qed.

(** ** C07 exact effect of a counting attestation.  [in_block s bs b prev]: [s]
    is the state reached while processing [b] on top of the chain [bs], after
    the attestations [prev]. *)
Theorem C07_attestation_effect hash_state hash_header hash_body gt vals s bs b prev a v0 :
  lenN vals <= VALIDATOR_REGISTRY_LIMIT ->
  in_block hash_state hash_header hash_body gt vals s bs b prev ->
  vote_counts s (at_data a) ->
  votes_in v0 a -> (forall v, votes_in v a -> v < lenN vals) ->
  exists s', process_attestations s [a] = Ok s' /\ frame s s' /\
    (~ two_thirds (lenN vals) (voters_after s a) -> att_effect_below s a s') /\
    (two_thirds (lenN vals) (voters_after s a) -> att_effect_reached s a s').
Proof. exact (C07_attestation_effect_pf hash_state hash_header hash_body gt vals s bs b prev a v0). Qed.
Print Assumptions C07_attestation_effect.

(** Processing a block's attestations is processing them one after the other. *)
Theorem C07_one_by_one hash_state hash_header hash_body gt vals s0 s1 s2 s bs b prev rest :
  chain hash_state hash_header hash_body gt vals s0 bs ->
  process_slots hash_state s0 (b_slot b) = Ok s1 ->
  process_block_header hash_header hash_body s1 b = Ok s2 ->
  process_attestations s2 prev = Ok s ->
  distinct_data (prev ++ rest) <= MAX_ATTESTATIONS_DATA ->
  process_attestations s2 (prev ++ rest) = process_attestations s rest.
Proof. exact (in_block_app hash_state hash_header hash_body gt vals s bs b prev rest s0 s1 s2). Qed.
Print Assumptions C07_one_by_one.

Example C07_example :
  in_block toy_state toy_header toy_body 1000 (toy_vals 3) next_mid ex_blocks next_block [] /\
  vote_counts next_mid (at_data next_att) /\ votes_in 1 next_att /\
  two_thirds 3 (voters_after next_mid next_att).
Proof.
  split; [exact next_mid_in_block|]. split; [exact next_counts|]. split; [vm_compute; done|].
  exists [1; 2]. split; [apply (bool_decide_unpack _); vm_compute; exact I|].
  split; [|vm_compute; done]. intros v Hv.
  apply elem_of_cons in Hv as [->|Hv]; [split; [done|right; vm_compute; done]|].
  apply elem_of_list_singleton in Hv as ->. split; [done|right; vm_compute; done].
Qed.

(** ** C08 finalization *)
Theorem C08_finalization hash_state hash_header hash_body gt vals s bs b prev a s' :
  lenN vals <= VALIDATOR_REGISTRY_LIMIT ->
  in_block hash_state hash_header hash_body gt vals s bs b prev ->
  process_attestations s [a] = Ok s' ->
  s_finalized s' <> s_finalized s ->
  let src := ad_source (at_data a) in
  let tgt := ad_target (at_data a) in
  s_finalized s' = src /\
  cp_slot (s_finalized s) < cp_slot src < cp_slot tgt /\
  slot_justified s (cp_slot src) /\ on_chain s src /\ on_chain s tgt /\
  slot_tracked_unjustified s (cp_slot tgt) /\ slot_justified s' (cp_slot tgt) /\
  two_thirds (lenN vals) (voters_after s a) /\
  (forall t, cp_slot src < t < cp_slot tgt -> ~ justifiable_distance (t - cp_slot (s_finalized s))).
Proof. exact (C08_finalization_pf hash_state hash_header hash_body gt vals s bs b prev a s'). Qed.
Print Assumptions C08_finalization.

Example C08_example :
  in_block toy_state toy_header toy_body 1000 (toy_vals 3) fin_mid fin_blocks fin_block [] /\
  exists s', process_attestations fin_mid [fin_att] = Ok s' /\
    s_finalized s' <> s_finalized fin_mid /\
    cp_slot (s_finalized s') = 1 /\ cp_slot (s_justified s') = 2.
Proof.
  split; [exact fin_mid_in_block|]. eexists. split; [vm_compute; reflexivity|]. vm_compute. done.
Qed.

(** ** C09 justifiable distances *)
Theorem C09_justifiable_exact_partial slot fin :
  slot - fin < 2 ^ 62 ->
  slot_is_justifiable_after slot fin = true <-> fin <= slot /\ justifiable_distance (slot - fin).
Proof. exact (justifiable_exact slot fin). Qed.
Print Assumptions C09_justifiable_exact_partial.

(** The full statement (all u64 pairs) fails: from distance 2^62 on, the checked
    multiplication overflows and pronic distances are rejected. *)
Theorem C09_justifiable_refuted :
  exists slot fin, slot < two64 /\ fin < two64 /\
    ~ (slot_is_justifiable_after slot fin = true <->
       fin <= slot /\ justifiable_distance (slot - fin)).
Proof. exact C09_justifiable_refuted_pf. Qed.
Print Assumptions C09_justifiable_refuted.

Theorem C09_justifiable_large slot fin :
  2 ^ 62 <= slot - fin ->
  slot_is_justifiable_after slot fin = true <-> exists k, slot - fin = k * k.
Proof. exact (justifiable_large slot fin). Qed.
Print Assumptions C09_justifiable_large.

Example C09_example :
  map (fun d => slot_is_justifiable_after (100 + d) 100) [5; 6; 7; 8; 9; 10; 11; 12; 16; 20; 21; 25]
  = [true; true; false; false; true; false; false; true; true; true; false; true].
Proof. vm_compute. done. Qed.

(** ** C10 window operations *)
Theorem C10_shift_preserves js fin fin' t :
  fin <= fin' -> fin' < t ->
  status (shift_window js (fin' - fin)) fin' t = status js fin t.
Proof. exact (C10_shift_preserves_pf js fin fin' t). Qed.
Print Assumptions C10_shift_preserves.

Theorem C10_extend js fin target js' t :
  extend_to_slot js fin target = Ok js' ->
  status js' fin t =
    match status js fin t with
    | Some b => Some b
    | None => if t <=? target then Some false else None
    end.
Proof. exact (C10_extend_pf js fin target js' t). Qed.
Print Assumptions C10_extend.

Theorem C10_set js fin target js' t :
  set_justified js fin target = Ok js' ->
  status js' fin t = if t =? target then Some true else status js fin t.
Proof. exact (C10_set_pf js fin target js' t). Qed.
Print Assumptions C10_set.

Theorem C10_query js fin t :
  is_slot_justified js fin t =
  match status js fin t with Some b => Ok b | None => Err JustifiedSlotOutOfRange end.
Proof. exact (is_slot_justified_status js fin t). Qed.
Print Assumptions C10_query.

(** The operations succeed exactly on representable targets. *)
Theorem C10_total js fin target :
  (target - fin <= HISTORICAL_ROOTS_LIMIT -> exists js', extend_to_slot js fin target = Ok js') /\
  (is_Some (status js fin target) -> exists js', set_justified js fin target = Ok js').
Proof. exact (C10_total_pf js fin target). Qed.
Print Assumptions C10_total.

Example C10_example :
  status [true; false; true] 10 13 = Some true /\
  shift_window [true; false; true] 2 = [true] /\
  extend_to_slot [true] 10 13 = Ok [true; false; false].
Proof. vm_compute. done. Qed.

(** ** C11 bookkeeping is canonical *)
Theorem C11_bookkeeping hash_state hash_header hash_body gt vals s bs :
  chain hash_state hash_header hash_body gt vals s bs ->
  StronglySorted N.lt (s_jroots s) /\
  length (s_jvals s) = (length (s_jroots s) * length vals)%nat /\
  forall r, r ∈ s_jroots s ->
    r <> ZERO /\ exists t, cp_slot (s_finalized s) < t /\ root_at s t = Some r.
Proof. exact (chain_bookkeeping hash_state hash_header hash_body gt vals s bs). Qed.
Print Assumptions C11_bookkeeping.

Theorem C11_same_tallies_same_encoding hash_state hash_header hash_body gt vals s bs s' bs' :
  chain hash_state hash_header hash_body gt vals s bs ->
  chain hash_state hash_header hash_body gt vals s' bs' ->
  (forall r, r ∈ s_jroots s <-> r ∈ s_jroots s') ->
  (forall r v, tallied s r v <-> tallied s' r v) ->
  s_jroots s = s_jroots s' /\ s_jvals s = s_jvals s'.
Proof. exact (C11_same_tallies_same_encoding_pf hash_state hash_header hash_body gt vals s bs s' bs'). Qed.
Print Assumptions C11_same_tallies_same_encoding.

(** The structural rejections cannot fire on a chain from genesis. *)
Theorem C11_no_structural_rejection hash_state hash_header hash_body gt vals s bs b :
  chain hash_state hash_header hash_body gt vals s bs ->
  state_transition hash_state hash_header hash_body s b <> Err JustificationVotesLengthMismatch /\
  state_transition hash_state hash_header hash_body s b <> Err ZeroHashInJustificationRoots.
Proof. exact (C11_no_structural_rejection_pf hash_state hash_header hash_body gt vals s bs b). Qed.
Print Assumptions C11_no_structural_rejection.

Example C11_example : length (s_jroots ex_state) = 1%nat /\ s_jvals ex_state = [true; false; false].
Proof. vm_compute. done. Qed.

(** ** C12 no panic *)
Theorem C12_no_panic hash_state hash_header hash_body gt vals s bs b :
  chain hash_state hash_header hash_body gt vals s bs ->
  lenN vals <= VALIDATOR_REGISTRY_LIMIT ->
  state_transition hash_state hash_header hash_body s b <> Panic.
Proof. exact (chain_no_panic hash_state hash_header hash_body gt vals s bs b). Qed.
Print Assumptions C12_no_panic.

Example C12_example : exists s' : State,
  t_chain 1000 (toy_vals 3) ex_state ex_blocks /\ lenN (toy_vals 3) <= VALIDATOR_REGISTRY_LIMIT /\
  t_stf ex_state next_block = Ok s' /\
  t_stf ex_state (mkBlock 8 1 0 0 []) = Err InvalidProposer.
Proof. eexists. split; [exact ex_chain|]. split; [done|]. split; vm_compute; reflexivity. Qed.

(** ** C13 votes that do not count change nothing; malformed ones reject the block *)
Theorem C13_ignored hash_state hash_header hash_body gt vals s bs b prev a rest s0 s1 s2 :
  lenN vals <= VALIDATOR_REGISTRY_LIMIT ->
  chain hash_state hash_header hash_body gt vals s0 bs ->
  process_slots hash_state s0 (b_slot b) = Ok s1 ->
  process_block_header hash_header hash_body s1 b = Ok s2 ->
  process_attestations s2 prev = Ok s ->
  ~ vote_counts s (at_data a) -> ~ vote_out_of_range s (at_data a) ->
  distinct_data (prev ++ a :: rest) <= MAX_ATTESTATIONS_DATA ->
  process_attestations s2 (prev ++ a :: rest) = process_attestations s2 (prev ++ rest).
Proof. exact (C13_ignored_pf hash_state hash_header hash_body gt vals s bs b prev a rest s0 s1 s2). Qed.
Print Assumptions C13_ignored.

Theorem C13_rejected hash_state hash_header hash_body gt vals s bs b prev a :
  lenN vals <= VALIDATOR_REGISTRY_LIMIT ->
  in_block hash_state hash_header hash_body gt vals s bs b prev ->
  (vote_out_of_range s (at_data a) -> process_attestations s [a] = Err JustifiedSlotOutOfRange) /\
  (vote_counts s (at_data a) -> (forall v, ~ votes_in v a) ->
     process_attestations s [a] = Err EmptyAggregationBits) /\
  (forall v, vote_counts s (at_data a) -> votes_in v a -> lenN vals <= v ->
     process_attestations s [a] = Err AggregationBitsOutOfBounds).
Proof. exact (C13_rejected_pf hash_state hash_header hash_body gt vals s bs b prev a). Qed.
Print Assumptions C13_rejected.

(** The slots without status are exactly those at or after the block's slot. *)
Theorem C13_range hash_state hash_header hash_body gt vals s bs b prev t :
  in_block hash_state hash_header hash_body gt vals s bs b prev ->
  status (s_jslots s) (cp_slot (s_finalized s)) t = None <-> b_slot b <= t.
Proof. exact (C13_range_pf hash_state hash_header hash_body gt vals s bs b prev t). Qed.
Print Assumptions C13_range.

Example C13_example :
  in_block toy_state toy_header toy_body 1000 (toy_vals 3) next_mid ex_blocks next_block [] /\
  (let bad := t_att ex_state [true; true; true] 3 4 in (* slot 4 is empty *)
   ~ vote_counts next_mid (at_data bad) /\ ~ vote_out_of_range next_mid (at_data bad)) /\
  vote_out_of_range next_mid (mkAD 8 (mkCp 1 8) (mkCp 1 8) (mkCp 1 2)).
Proof.
  split; [exact next_mid_in_block|]. split; [split|].
  - intros (_ & _ & _ & [H _] & _). apply H. vm_compute. reflexivity.
  - intros [H|[_ H]]; vm_compute in H; done.
  - right. split; vm_compute; done.
Qed.

(** ** C14 is false: a source is finalized although less than two thirds voted
    with that source. *)
Theorem C14_finalization_same_source_refuted :
  exists hash_state hash_header hash_body gt vals s bs,
    chain hash_state hash_header hash_body gt vals s bs /\
    0 < cp_slot (s_finalized s) /\
    ~ two_thirds (lenN vals) (fun v => exists b a,
        b ∈ bs /\ a ∈ b_atts b /\ votes_in v a /\ ad_source (at_data a) = s_finalized s).
Proof. exact C14_finalization_same_source_refuted_pf. Qed.
Print Assumptions C14_finalization_same_source_refuted.
