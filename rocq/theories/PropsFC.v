(** Fork choice and vote tracking: C15-C19.  Statements use ForkChoice.v's
    entry points and the vocabulary of FCSpec.v. *)
From Verif Require Import FCMore.

(** ** C15 the head is a function of the block and vote sets *)
Theorem C15_order_independent start blocks blocks' votes votes' min_score :
  start <> ZERO -> NoDup (map fst blocks) ->
  blocks ≡ₚ blocks' -> votes ≡ₚ votes' ->
  compute_lmd_ghost_head start blocks votes min_score =
  compute_lmd_ghost_head start blocks' votes' min_score.
Proof. exact (ghost_perm start blocks blocks' votes votes' min_score). Qed.
Print Assumptions C15_order_independent.

Example C15_example :
  fst <$> compute_lmd_ghost_head 1 ex_tree ex_votes 0 = Some 6 /\
  reverse ex_tree <> ex_tree /\ reverse ex_votes <> ex_votes /\
  fst <$> compute_lmd_ghost_head 1 (reverse ex_tree) (reverse ex_votes) 0 = Some 6.
Proof. repeat split; vm_compute; done. Qed.

(** ** C16 weights count the validators of the subtree *)
Theorem C16_weight_is_subtree_votes start_slot blocks votes w r s p :
  NoDup (map fst votes) -> slots_decrease (list_to_map blocks) ->
  compute_block_weights start_slot blocks votes = Some w ->
  (list_to_map blocks : BlockTree) !! r = Some (s, p) -> start_slot < s ->
  counts (weight w r) (votes_for_subtree (list_to_map blocks) (list_to_map votes) r).
Proof. exact (C16_weight_is_subtree_votes_pf start_slot blocks votes w r s p). Qed.
Print Assumptions C16_weight_is_subtree_votes.

(** Blocks at or below the start slot and unknown blocks have no weight. *)
Theorem C16_no_weight_below start_slot blocks votes w r :
  slots_decrease (list_to_map blocks) ->
  compute_block_weights start_slot blocks votes = Some w ->
  (forall s p, (list_to_map blocks : BlockTree) !! r = Some (s, p) -> s <= start_slot) ->
  w !! r = None.
Proof. exact (weights_low start_slot blocks votes w r). Qed.
Print Assumptions C16_no_weight_below.

Theorem C16_weights_terminate start_slot blocks votes :
  slots_decrease (list_to_map blocks) ->
  exists w, compute_block_weights start_slot blocks votes = Some w.
Proof. exact (C16_weights_terminate_pf start_slot blocks votes). Qed.
Print Assumptions C16_weights_terminate.

Example C16_example :
  NoDup (map fst ex_votes) /\ slots_decrease (list_to_map ex_tree) /\
  (compute_block_weights 0 ex_tree ex_votes ≫= fun w => Some (map (weight w) [1; 2; 3; 4; 5; 6])) =
  Some [0; 3; 2; 1; 0; 1].
Proof. split; [|split]; [exact ex_votes_nodup|exact ex_tree_dec|vm_compute; reflexivity]. Qed.

(** ** C17 the head is the greedy heaviest leaf *)
Theorem C17_greedy_head start blocks votes s p :
  start <> ZERO -> NoDup (map fst blocks) ->
  (list_to_map blocks : BlockTree) !! ZERO = None ->
  slots_decrease (list_to_map blocks) ->
  (list_to_map blocks : BlockTree) !! start = Some (s, p) ->
  exists h w,
    compute_lmd_ghost_head start blocks votes 0 = Some (h, w) /\
    compute_block_weights s blocks votes = Some w /\
    greedy (list_to_map blocks) (weight w) 0 start h /\
    descends (list_to_map blocks) h start /\
    (forall c sc, (list_to_map blocks : BlockTree) !! c <> Some (sc, h)).
Proof. exact (C17_greedy_head_pf start blocks votes s p). Qed.
Print Assumptions C17_greedy_head.

(** A start root outside the block set is returned as it is. *)
Theorem C17_unknown_start start blocks votes min_score :
  start <> ZERO -> (list_to_map blocks : BlockTree) !! start = None ->
  compute_lmd_ghost_head start blocks votes min_score = Some (start, ∅).
Proof. exact (C17_unknown_start_pf start blocks votes min_score). Qed.
Print Assumptions C17_unknown_start.

(** The zero root stands for a block of the lowest slot. *)
Theorem C17_zero_start blocks votes min_score :
  blocks <> [] -> NoDup (map fst blocks) -> (list_to_map blocks : BlockTree) !! ZERO = None ->
  exists r s p,
    (list_to_map blocks : BlockTree) !! r = Some (s, p) /\
    (forall r' s' p', (list_to_map blocks : BlockTree) !! r' = Some (s', p') -> s <= s') /\
    compute_lmd_ghost_head ZERO blocks votes min_score = compute_lmd_ghost_head r blocks votes min_score.
Proof. exact (C17_zero_start_pf blocks votes min_score). Qed.
Print Assumptions C17_zero_start.

Example C17_example :
  NoDup (map fst ex_tree) /\ (list_to_map ex_tree : BlockTree) !! ZERO = None /\
  (list_to_map ex_tree : BlockTree) !! 1 = Some (0, 0) /\
  fst <$> compute_lmd_ghost_head 1 ex_tree ex_votes 0 = Some 6 /\
  (* without votes the highest root wins among siblings *)
  fst <$> compute_lmd_ghost_head 1 ex_tree [] 0 = Some 5.
Proof. split; [exact ex_tree_nodup|]. repeat split; vm_compute; reflexivity. Qed.

(** ** C18 safe target *)
Theorem C18_safe_target n start blocks votes s p :
  0 < n -> start <> ZERO -> NoDup (map fst blocks) -> NoDup (map fst votes) ->
  (list_to_map blocks : BlockTree) !! ZERO = None ->
  slots_decrease (list_to_map blocks) ->
  (list_to_map blocks : BlockTree) !! start = Some (s, p) ->
  exists h, safe_target n start blocks votes = Some h /\
    descends (list_to_map blocks) h start /\
    (forall b, descends (list_to_map blocks) h b -> descends (list_to_map blocks) b start -> b <> start ->
       supported n (votes_for_subtree (list_to_map blocks) (list_to_map votes) b)) /\
    (forall c sc, (list_to_map blocks : BlockTree) !! c = Some (sc, h) ->
       ~ supported n (votes_for_subtree (list_to_map blocks) (list_to_map votes) c)).
Proof. exact (safe_target_spec n start blocks votes s p). Qed.
Print Assumptions C18_safe_target.

Example C18_example :
  safe_target 4 1 ex_tree ex_votes = Some 2 /\ safe_target 7 1 ex_tree ex_votes = Some 1 /\
  safe_target 3 1 ex_tree ex_votes = Some 3 /\ safe_target 3 1 ex_tree ex_votes <> safe_target 4 1 ex_tree ex_votes.
Proof. repeat split; vm_compute; try reflexivity. done. Qed.

(** ** C19 latest votes *)
Theorem C19_newest_vote hash_data evs f v d :
  vote_run hash_data evs f ->
  (fc_known f !! v = Some d -> newest hash_data (known_deliveries evs) v d) /\
  (fc_new f !! v = Some d -> newest hash_data (new_deliveries evs) v d) /\
  ((exists bits, (bits, d) ∈ known_deliveries evs /\ bits !! N.to_nat v = Some true) ->
     is_Some (fc_known f !! v)) /\
  ((exists bits, (bits, d) ∈ new_deliveries evs /\ bits !! N.to_nat v = Some true) ->
     is_Some (fc_new f !! v)).
Proof. exact (vote_run_newest hash_data evs f v d). Qed.
Print Assumptions C19_newest_vote.

Theorem C19_order_independent hash_data evs f evs' f' :
  (forall x y, hash_data x = hash_data y -> x = y) ->
  vote_run hash_data evs f -> vote_run hash_data evs' f' ->
  (forall v d,
     (exists bits, (bits, d) ∈ known_deliveries evs /\ bits !! N.to_nat v = Some true) <->
     (exists bits, (bits, d) ∈ known_deliveries evs' /\ bits !! N.to_nat v = Some true)) ->
  fc_known f = fc_known f'.
Proof. exact (vote_run_order hash_data evs f evs' f'). Qed.
Print Assumptions C19_order_independent.

(** Two delivery orders of the same votes, one through the pending pool. *)
Example C19_example :
  let d1 := mkAD 3 (mkCp 5 3) (mkCp 2 1) (mkCp 1 0) in
  let d2 := mkAD 4 (mkCp 6 4) (mkCp 2 1) (mkCp 1 0) in
  let h := fun d => ad_slot d in
  let f := promote h (record_new h (record_known h (mkFc ∅ ∅) [true; true] d2) [false; true; true] d1) in
  let f' := record_known h (record_known h (mkFc ∅ ∅) [false; true; true] d1) [true; true] d2 in
  vote_run h [ev_known [true; true] d2; ev_new [false; true; true] d1; ev_promote [(1, d1); (2, d1)]] f /\
  vote_run h [ev_known [false; true; true] d1; ev_known [true; true] d2] f' /\
  map_to_list (fc_known f) = map_to_list (fc_known f') /\
  fc_known f !! 1 = Some d2 /\ fc_known f !! 2 = Some d1.
Proof.
  cbn zeta. split; [|split; [|vm_compute; done]].
  - apply (vr_promote _ [_; _]).
    + apply (vr_new _ [_]). apply (vr_known _ []). constructor.
    + vm_compute. reflexivity.
  - apply (vr_known _ [_]). apply (vr_known _ []). constructor.
Qed.
