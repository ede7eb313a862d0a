(** Specification vocabulary for the state transition properties.  Nothing
    here refers to the helpers of the model, only to the data types, to
    [state_transition] and to [genesis]. *)
From Verif Require Export STF.

(** A distance is justifiable (3SF-mini): at most 5, a square, or pronic. *)
Definition justifiable_distance (d : N) : Prop :=
  d <= 5 \/ (exists k, d = k * k) \/ (exists k, d = k * (k + 1)).

(** Justification status of an absolute slot [t], given the finalized slot and
    the bitlist that starts at [fin + 1]: finalized slots are justified, slots
    beyond the tracked ones have no status. *)
Definition status (js : list bool) (fin t : N) : option bool :=
  if t <=? fin then Some true else js !! N.to_nat (t - fin - 1).
Definition slot_justified (s : State) (t : N) : Prop :=
  status (s_jslots s) (cp_slot (s_finalized s)) t = Some true.
Definition slot_tracked_unjustified (s : State) (t : N) : Prop :=
  status (s_jslots s) (cp_slot (s_finalized s)) t = Some false.

(** Root recorded by the state for slot [t]. *)
Definition root_at (s : State) (t : N) : option H256 := s_hist s !! N.to_nat t.

(** Validator [v] participates in attestation [a]. *)
Definition votes_in (v : N) (a : AggAtt) : Prop := at_bits a !! N.to_nat v = Some true.

(** Validator [v] has a pending vote for block root [r] recorded in the state. *)
Definition tallied (s : State) (r : H256) (v : N) : Prop :=
  v < lenN (s_validators s) /\
  exists i : nat, s_jroots s !! i = Some r /\
    s_jvals s !! (i * length (s_validators s) + N.to_nat v)%nat = Some true.

(** At least two thirds of the [n] validators, counted as distinct indices,
    satisfy [P]. *)
Definition two_thirds (n : N) (P : N -> Prop) : Prop :=
  exists vs : list N, NoDup vs /\ (forall v, v ∈ vs -> v < n /\ P v) /\
                      2 * n <= 3 * lenN vs.

(** A checkpoint names a real block of the chain of [s]. *)
Definition on_chain (s : State) (c : Checkpoint) : Prop :=
  cp_root c <> ZERO /\ root_at s (cp_slot c) = Some (cp_root c).

(** The votes that count (3SF-mini): source justified, target tracked and not
    yet justified, all three checkpoints on the chain, target after source,
    target at a justifiable distance from the finalized slot. *)
Definition vote_counts (s : State) (d : AttestationData) : Prop :=
  slot_justified s (cp_slot (ad_source d)) /\
  slot_tracked_unjustified s (cp_slot (ad_target d)) /\
  on_chain s (ad_source d) /\ on_chain s (ad_target d) /\ on_chain s (ad_head d) /\
  cp_slot (ad_source d) < cp_slot (ad_target d) /\
  justifiable_distance (cp_slot (ad_target d) - cp_slot (s_finalized s)).

(** Votes naming a slot without justification status: the source, or the target
    of a vote whose source is justified, lies at or after the block's slot. *)
Definition vote_out_of_range (s : State) (d : AttestationData) : Prop :=
  let untracked t := status (s_jslots s) (cp_slot (s_finalized s)) t = None in
  untracked (cp_slot (ad_source d)) \/
  (slot_justified s (cp_slot (ad_source d)) /\ untracked (cp_slot (ad_target d))).

(** Voters for the target of [a] once [a] is applied to [s]. *)
Definition voters_after (s : State) (a : AggAtt) (v : N) : Prop :=
  tallied s (cp_root (ad_target (at_data a))) v \/ votes_in v a.

(** Block processing never touches these parts when applying attestations. *)
Record frame (s s' : State) : Prop := {
  fr_gt : s_genesis_time s' = s_genesis_time s;
  fr_slot : s_slot s' = s_slot s;
  fr_header : s_header s' = s_header s;
  fr_hist : s_hist s' = s_hist s;
  fr_vals : s_validators s' = s_validators s }.

(** Effect of a counting attestation whose target stays below two thirds: only
    the tally of its target root grows. *)
Record att_effect_below (s : State) (a : AggAtt) (s' : State) : Prop := {
  ab_just : s_justified s' = s_justified s;
  ab_fin : s_finalized s' = s_finalized s;
  ab_win : s_jslots s' = s_jslots s;
  ab_tally : forall r v, tallied s' r v <->
    if decide (r = cp_root (ad_target (at_data a)))
    then v < lenN (s_validators s) /\ voters_after s a v
    else tallied s r v }.

(** Finalization condition: the source is beyond the finalized slot and no slot
    strictly between source and target is justifiable. *)
Definition finalizes (s : State) (a : AggAtt) : Prop :=
  cp_slot (s_finalized s) < cp_slot (ad_source (at_data a)) /\
  forall t, cp_slot (ad_source (at_data a)) < t < cp_slot (ad_target (at_data a)) ->
    ~ justifiable_distance (t - cp_slot (s_finalized s)).

(** Effect of a counting attestation whose target reaches two thirds. *)
Record att_effect_reached (s : State) (a : AggAtt) (s' : State) : Prop := {
  ar_just : s_justified s' =
    if cp_slot (s_justified s) <? cp_slot (ad_target (at_data a))
    then ad_target (at_data a) else s_justified s;
  ar_status : forall t, cp_slot (s_finalized s') < t ->
    (slot_justified s' t <-> t = cp_slot (ad_target (at_data a)) \/ slot_justified s t);
  ar_target : slot_justified s' (cp_slot (ad_target (at_data a)));
  ar_fin : finalizes s a -> s_finalized s' = ad_source (at_data a);
  ar_nofin : ~ finalizes s a -> s_finalized s' = s_finalized s;
  ar_tally : forall r v, tallied s' r v <->
    tallied s r v /\ r <> cp_root (ad_target (at_data a)) /\
    exists t, cp_slot (s_finalized s') < t /\ root_at s t = Some r }.

(** Some block contains an attestation with exactly this target checkpoint in
    which [v] participates. *)
Definition included_vote_for (bs : list Block) (c : Checkpoint) (v : N) : Prop :=
  exists b a, b ∈ bs /\ a ∈ b_atts b /\ votes_in v a /\ ad_target (at_data a) = c.

Section Chains.
  Context (hash_state : State -> H256) (hash_header : Header -> H256)
          (hash_body : list AggAtt -> H256).
  Context (gt : N) (vals : list Validator).

  (** Chains of accepted blocks from genesis: [chain s bs] says that [s] is the
      state after the accepted blocks [bs], oldest first. *)
  Inductive chain : State -> list Block -> Prop :=
  | chain_genesis : chain (genesis hash_body gt vals) []
  | chain_step s bs b s' :
      chain s bs ->
      state_transition hash_state hash_header hash_body s b = Ok s' ->
      chain s' (bs ++ [b]).

  (** The latest header with its state root filled in: the hash of this is the
      root of the latest block. *)
  Definition filled_header (s : State) : Header :=
    if h_state_root (s_header s) =? ZERO
    then set_state_root (s_header s) (hash_state s) else s_header s.

  (** Root of the genesis block. *)
  Definition genesis_root : H256 :=
    hash_header (set_state_root (s_header (genesis hash_body gt vals))
                   (hash_state (genesis hash_body gt vals))).

  (** The (slot, root) pairs of the blocks of a chain, genesis included. *)
  Definition chain_entries (bs : list Block) : list (N * H256) :=
    (0, genesis_root) ::
    map (fun b => (b_slot b, block_root hash_header hash_body b)) bs.

  (** Some block of the chain contains an attestation for target root [r] in
      which [v] participates, and the target names a slot at which the chain of
      [s] has exactly that root. *)
  Definition included_vote (s : State) (bs : list Block) (r : H256) (v : N) : Prop :=
    exists b a, b ∈ bs /\ a ∈ b_atts b /\ votes_in v a /\
                cp_root (ad_target (at_data a)) = r /\
                root_at s (cp_slot (ad_target (at_data a))) = Some r.

  (** States inside the processing of the next block [b] on top of a chain:
      slots advanced, header applied, and the attestations [done] applied. *)
  Definition in_block (s : State) (bs : list Block) (b : Block) (done : list AggAtt) : Prop :=
    exists s0 s1 s2,
      chain s0 bs /\
      process_slots hash_state s0 (b_slot b) = Ok s1 /\
      process_block_header hash_header hash_body s1 b = Ok s2 /\
      process_attestations s2 done = Ok s.
End Chains.
