(** C74: who has to take part so that a new block gets finalized. *)
From Verif Require Import LivenessExamples.

(** C74.  On every chain, votes of any two thirds of the validators in three more blocks
    finalize a block that is not there yet (if every slot's proposer is there). *)
Theorem C74_votes_partial hash_state hash_header hash_body gt vals s bs V :
  (forall h, hash_header h <> ZERO) -> lenN vals <= VALIDATOR_REGISTRY_LIMIT -> 0 < lenN vals -> quorum (lenN vals) V ->
  chain hash_state hash_header hash_body gt vals s bs -> s_slot s <= 250000 ->
  exists b1 b2 b3 s', chain hash_state hash_header hash_body gt vals s' (bs ++ [b1; b2; b3]) /\
    (forall b a, b ∈ [b1; b2; b3] -> a ∈ b_atts b -> signed_by V a) /\
    s_slot s < b_slot b1 /\ s_finalized s' = mkCp (block_root hash_header hash_body b1) (b_slot b1).
Proof. exact (always_pf hash_state hash_header hash_body gt vals s bs V). Qed.
Print Assumptions C74_votes_partial.

Example C74_votes_example :
  quorum (lenN (toy_vals 3)) [1; 2] /\ t_chain 1000 (toy_vals 3) ex_state ex_blocks /\ s_slot ex_state = 6.
Proof. split; [exact ex_quorum|]. split; [exact ex_chain|]. vm_compute. reflexivity. Qed.

(** C74.  The two thirds manage alone when the proposers of two neighbouring justifiable slots
    and of a later slot are among them.  ([d0] keeps the first vote from finalizing too early.) *)
Theorem C74_alone_partial hash_state hash_header hash_body gt vals s bs V d0 d1 d2 t3 :
  (forall h, hash_header h <> ZERO) -> lenN vals <= VALIDATOR_REGISTRY_LIMIT -> 0 < lenN vals -> quorum (lenN vals) V ->
  chain hash_state hash_header hash_body gt vals s bs ->
  let f := cp_slot (s_finalized s) in
  justifiable_distance d0 -> d0 < d1 -> neighbours d1 d2 -> s_slot s < f + d0 ->
  f + d2 < t3 -> t3 <= HISTORICAL_ROOTS_LIMIT ->
  (forall t, t ∈ [f + d1; f + d2; t3] -> t mod lenN vals ∈ V) ->
  exists b1 b2 b3 s', chain hash_state hash_header hash_body gt vals s' (bs ++ [b1; b2; b3]) /\ only_by V [b1; b2; b3] /\
    s_slot s < b_slot b1 /\ b_slot b3 = t3 /\
    s_finalized s' = mkCp (block_root hash_header hash_body b1) (b_slot b1) /\
    s_justified s' = mkCp (block_root hash_header hash_body b2) (b_slot b2).
Proof. exact (finalizes_by_pf hash_state hash_header hash_body gt vals s bs V d0 d1 d2 t3). Qed.
Print Assumptions C74_alone_partial.

(** Finalized slot 2, block slot 6; without validator 0: slots 2 + 6, 2 + 9 and 13. *)
Example C74_alone_example :
  cp_slot (s_finalized ex_state) = 2 /\ s_slot ex_state < 2 + 5 /\ justifiable_distance 5 /\ neighbours 6 9 /\
  forall t, t ∈ [2 + 6; 2 + 9; 13] -> t mod lenN (toy_vals 3) ∈ [1; 2].
Proof.
  split; [vm_compute; reflexivity|]. split; [vm_compute; reflexivity|]. split; [left; lia|]. split.
  - split; [lia|]. split; [right; right; by exists 2|]. split; [right; left; by exists 3|].
    intros d Hd [H|[[k ->]|[k ->]]]; [lia| |].
    + assert (k <= 2 \/ 3 <= k) as [?|?] by lia; nia.
    + assert (k <= 2 \/ 3 <= k) as [?|?] by lia; nia.
  - intros t. rewrite !elem_of_cons, elem_of_nil. intros [->|[->|[->|[]]]]; apply (bool_decide_unpack _); vm_compute; exact I.
Qed.

(** C74.  Without blocks at square distances from the finalized slot (and none at the first
    five), nothing is ever finalized, whoever votes. *)
Theorem C74_stuck hash_state hash_header hash_body gt vals s bs s' bs' :
  lenN vals <= VALIDATOR_REGISTRY_LIMIT ->
  chain hash_state hash_header hash_body gt vals s bs ->
  chain hash_state hash_header hash_body gt vals s' (bs ++ bs') ->
  let f := cp_slot (s_finalized s) in
  (forall t, f < t -> slot_justified s t -> justifiable_distance (t - f)) ->
  (forall b, b ∈ bs ++ bs' -> f < b_slot b -> 5 < b_slot b - f /\ ~ square_number (b_slot b - f)) ->
  cp_slot (s_finalized s') = f.
Proof. exact (stuck_pf hash_state hash_header hash_body gt vals s bs s' bs'). Qed.
Print Assumptions C74_stuck.

(** C74.  So with sixteen validators, twelve of which are there and follow the rules, once the
    first slots are missed there is a chain after which these twelve never finalize anything. *)
Theorem C74_refuted hash_state hash_header hash_body gt vals :
  lenN vals = 16 ->
  quorum 16 present /\
  exists s bs, chain hash_state hash_header hash_body gt vals s bs /\ only_by present bs /\ s_slot s = 6 /\
    forall s' bs', chain hash_state hash_header hash_body gt vals s' (bs ++ bs') -> only_by present bs' ->
      cp_slot (s_finalized s') = 0.
Proof. intros H. split; [exact present_quorum|]. exact (refuted_pf hash_state hash_header hash_body gt vals H). Qed.
Print Assumptions C74_refuted.

(** The twelve do vote and justify. *)
Example C74_stuck_example :
  t_chain 1000 (toy_vals 16) live_state live_blocks /\ only_by present live_blocks /\ (forall b, b ∈ live_blocks -> 5 < b_slot b) /\
  cp_slot (s_justified live_state) = 12 /\ cp_slot (s_finalized live_state) = 0.
Proof. split; [exact live_chain|]. split; [exact live_only|]. split; [exact live_late|]. vm_compute. done. Qed.
