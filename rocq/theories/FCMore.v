(** Proofs of the theorems stated in PropsFC.v and example data. *)
From Verif Require Export FCProofs.

Lemma C16_weight_is_subtree_votes_pf start_slot blocks votes w r s p :
  NoDup (map fst votes) -> slots_decrease (list_to_map blocks) ->
  compute_block_weights start_slot blocks votes = Some w ->
  (list_to_map blocks : BlockTree) !! r = Some (s, p) -> start_slot < s ->
  counts (weight w r) (votes_for_subtree (list_to_map blocks) (list_to_map votes) r).
Proof. intros Hn Hd Hw Hr Hs. by eapply weights_count. Qed.

Lemma C16_weights_terminate_pf start_slot blocks votes :
  slots_decrease (list_to_map blocks) ->
  exists w, compute_block_weights start_slot blocks votes = Some w.
Proof. intros Hd. apply (add_weights_total _ _ votes ∅ Hd). Qed.

Lemma C17_greedy_head_pf start blocks votes s p :
  start <> ZERO -> NoDup (map fst blocks) ->
  (list_to_map blocks : BlockTree) !! ZERO = None ->
  slots_decrease (list_to_map blocks) ->
  (list_to_map blocks : BlockTree) !! start = Some (s, p) ->
  exists h w,
    compute_lmd_ghost_head start blocks votes 0 = Some (h, w) /\
    compute_block_weights s blocks votes = Some w /\
    greedy (list_to_map blocks) (weight w) 0 start h /\
    descends (list_to_map blocks) h start /\
    (forall c sc, (list_to_map blocks : BlockTree) !! c <> Some (sc, h)).
Proof.
  intros H1 H2 H3 H4 H5.
  destruct (ghost_spec start blocks votes 0 s p H1 H2 H3 H4 H5) as (h & w & Ha & Hb & Hc & Hd).
  exists h, w. repeat (split; [done|]). intros c sc Hs.
  apply (greedy_leaf_end _ _ _ _ _ Hc c). split; [by eexists|by left].
Qed.

Lemma C17_unknown_start_pf start blocks votes min_score :
  start <> ZERO -> (list_to_map blocks : BlockTree) !! start = None ->
  compute_lmd_ghost_head start blocks votes min_score = Some (start, ∅).
Proof.
  intros Hs Hn. unfold compute_lmd_ghost_head. destruct blocks as [|e es]; [done|].
  destruct (N.eqb_spec start ZERO) as [|_]; [done|]. by rewrite Hn.
Qed.

(** A tree: 1 is the start; 2 and 4 are children of 1; 3 and 6 children of 2... *)
Definition ex_tree : BlockEntries :=
  [(1, (0, 0)); (2, (1, 1)); (4, (2, 1)); (3, (2, 2)); (5, (3, 4)); (6, (4, 3))].
Definition ex_vote (h : N) : AttestationData := mkAD 4 (mkCp h 0) (mkCp 1 0) (mkCp 1 0).
Definition ex_votes : VoteEntries := [(0, ex_vote 2); (1, ex_vote 3); (2, ex_vote 6); (3, ex_vote 4)].
Lemma ex_tree_nodup : NoDup (map fst ex_tree).
Proof. apply (bool_decide_unpack _). vm_compute. exact I. Qed.
Lemma ex_votes_nodup : NoDup (map fst ex_votes).
Proof. apply (bool_decide_unpack _). vm_compute. exact I. Qed.
(** A test for [slots_decrease]. *)
Lemma slots_decrease_check (l : BlockEntries) :
  forallb (fun e : H256 * (N * H256) =>
    match (list_to_map l : BlockTree) !! e.2.2 with
    | Some (s', _) => s' <? e.2.1 | None => true end) l = true ->
  slots_decrease (list_to_map l).
Proof.
  intros H r s p s' p' H1 H2. rewrite forallb_forall in H.
  apply elem_of_list_to_map_2, elem_of_list_In in H1. apply H in H1. cbn [fst snd] in H1.
  rewrite H2 in H1. lia.
Qed.
Lemma ex_tree_dec : slots_decrease (list_to_map ex_tree).
Proof. apply slots_decrease_check. vm_compute. reflexivity. Qed.

Lemma min_slot_spec e es : let m := min_slot e es in
  m ∈ e :: es /\ forall x, x ∈ e :: es -> (snd m).1 <= (snd x).1.
Proof.
  revert e. induction es as [|x es IH]; intros e; cbn [min_slot].
  - split; [by left|]. intros y Hy. apply elem_of_list_singleton in Hy as ->. lia.
  - destruct (N.ltb_spec (snd x).1 (snd e).1) as [Hlt|Hle].
    + destruct (IH x) as [H1 H2]. split; [by right|]. intros y Hy.
      apply elem_of_cons in Hy as [->|Hy]; [|by apply H2]. specialize (H2 x ltac:(by left)). lia.
    + destruct (IH e) as [H1 H2]. split.
      * apply elem_of_cons in H1 as [H1|H1]; [rewrite H1; by left|right; by right].
      * intros y Hy. apply elem_of_cons in Hy as [->|Hy]; [apply H2; by left|].
        apply elem_of_cons in Hy as [->|Hy]; [specialize (H2 e ltac:(by left)); lia|apply H2; by right].
Qed.

Lemma C17_zero_start_pf blocks votes min_score :
  blocks <> [] -> NoDup (map fst blocks) -> (list_to_map blocks : BlockTree) !! ZERO = None ->
  exists r s p,
    (list_to_map blocks : BlockTree) !! r = Some (s, p) /\
    (forall r' s' p', (list_to_map blocks : BlockTree) !! r' = Some (s', p') -> s <= s') /\
    compute_lmd_ghost_head ZERO blocks votes min_score = compute_lmd_ghost_head r blocks votes min_score.
Proof.
  intros Hne Hnd Hz. destruct blocks as [|e es]; [done|].
  destruct (min_slot_spec e es) as [Hin Hmin]. destruct (min_slot e es) as [r [s p]] eqn:Hm. cbn in Hmin.
  assert ((list_to_map (e :: es) : BlockTree) !! r = Some (s, p)) as Hr by (by apply elem_of_list_to_map_1).
  exists r, s, p. split_and!; [done| |].
  - intros r' s' p' H. apply elem_of_list_to_map_2 in H. apply (Hmin _ H).
  - unfold compute_lmd_ghost_head. rewrite Hm. change (ZERO =? ZERO) with true. cbv iota. cbn [fst].
    destruct (N.eqb_spec r ZERO) as [->|_]; [congruence|]. done.
Qed.
