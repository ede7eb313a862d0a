(** The fork choice tree in the log. *)
From Verif Require Import TreeLogSpec TreeLogProofs NodeExamples.
Local Open Scope N_scope.

(** ** C79: in every reachable node, for the head and weights of fork choice and whatever the
    order in which the hash map is iterated, the tree is written without panic.  It is rooted
    at a block whose parent is not kept, of the smallest slot there is.  It shows blocks of
    the live chain below that root with their slots, none twice, the children of every block
    left of the column limit among them, heavier branches first; the head marker stands at the head only, and does
    stand there if the head is below that root and left of the limit. *)
Theorem C79_tree_partial E gt vals n votes h w it :
  good_hash (e_header E) -> lenN vals <= VALIDATOR_REGISTRY_LIMIT -> reachable E gt vals n ->
  compute_lmd_ghost_head (cp_root (db_just (nd_db n))) (map_to_list (live_chain (tab n))) votes 0 = Some (h, w) ->
  it ≡ₚ map_to_list (live_chain (tab n)) ->
  exists root out, format_fork_choice_tree (live_chain (tab n)) w h it = Ok out /\
    top_block (live_chain (tab n)) root /\
    (forall r, is_Some (live_chain (tab n) !! r) -> slot_in (live_chain (tab n)) root <= slot_in (live_chain (tab n)) r) /\
    tree_ok (live_chain (tab n)) h root out /\
    branches_sorted (live_chain (tab n)) w out /\
    forall k, column (live_chain (tab n)) root h k -> k < MAX_DISPLAY_DEPTH -> head_marked h out.
Proof. intros H1 H2. exact (tree_pf E gt vals H1 H2 n votes h w it). Qed.
Print Assumptions C79_tree_partial.

(** A tree with two branches: B3 and Y on B2. *)
Definition tl_tree (n : Node) (it : list (H256 * (N * H256))) : res unit (list Piece) :=
  match compute_lmd_ghost_head (cp_root (db_just (nd_db n))) (map_to_list (live_chain (tab n))) (known_votes n) 0 with
  | Some (h, w) => format_fork_choice_tree (live_chain (tab n)) w h it
  | None => Panic
  end.
Definition tl_n2 := x_node xe x_n0 (x_es ++ [ev_block (x_sb xy)]).
Example C79_nonvacuous :
  reachable xe 1000 x_vals tl_n2 /\
  tl_tree tl_n2 (map_to_list (live_chain (tab tl_n2))) =
    Ok ([PNode (x_root xe xb1) 1; PNode (x_root xe xb2) 2; PBranches 2; PEol] ++
        [PBranch [] false; PGap 37; PNode (x_root xe xy) 40; PHead; PWeight 0; PEol] ++
        [PBranch [] true; PNode (x_root xe xb3) 3; PWeight 0; PEol]).
Proof.
  split.
  - exists x_gen, x_n0, (x_es ++ [ev_block (x_sb xy)]). split_and!; [exact x_anchor|exact x_started|].
    apply x_node_run. vm_compute. reflexivity.
  - vm_compute. reflexivity.
Qed.

Definition tl_b1' := x_block xe x_g 1 [x_vote [true] 0 x_g_cp x_g_cp].
Definition tl_es : list node_event :=
  [ev_tick (x_at 40 1) false; ev_block (x_sb xb1); ev_block (x_sb tl_b1'); ev_block (x_sb xb2); ev_block (x_sb xb3)].
Definition tl_n3 := x_node xe x_n0 tl_es.
Lemma tl_reach3 : reachable xe 1000 x_vals tl_n3.
Proof.
  exists x_gen, x_n0, tl_es. split_and!; [exact x_anchor|exact x_started|]. apply x_node_run. vm_compute. reflexivity.
Qed.

Lemma tl_in3 : bool_decide (is_Some (live_chain (tab tl_n3) !! x_root xe xb3)) = true.
Proof. vm_compute. reflexivity. Qed.
Lemma tl_other h : (h =? x_root xe tl_b1') = false -> h ∉ map fst (shown [PNode (x_root xe tl_b1') 1; PEol]).
Proof.
  change (map fst (shown [PNode (x_root xe tl_b1') 1; PEol])) with [x_root xe tl_b1'].
  generalize (x_root xe tl_b1'). intros x H Hin. apply elem_of_list_singleton in Hin as ->. by rewrite N.eqb_refl in H.
Qed.

(** Missing: the head need not be shown.  Two blocks of the finalized slot: pruning keeps
    both, neither has its parent in the live chain, and which of them is taken for the root
    depends on the iteration order of the hash map.  Taken the wrong one, the tree shows that
    block alone: neither the head nor the finalized nor the justified block. *)
Theorem C79_root_refuted : exists E gt vals n it h out,
  good_hash (e_header E) /\ lenN vals <= VALIDATOR_REGISTRY_LIMIT /\ reachable E gt vals n /\
  ghost_head n = Ok h /\ is_Some (live_chain (tab n) !! h) /\
  it ≡ₚ map_to_list (live_chain (tab n)) /\ tl_tree n it = Ok out /\
  lenN (shown out) = 1 /\ h ∉ map fst (shown out) /\
  cp_root (db_fin (nd_db n)) ∉ map fst (shown out) /\ cp_root (db_just (nd_db n)) ∉ map fst (shown out).
Proof.
  exists xe, 1000, x_vals, tl_n3, (map_to_list (live_chain (tab tl_n3))), (x_root xe xb3), [PNode (x_root xe tl_b1') 1; PEol].
  split; [exact xe_good|]. split; [exact x_vals_few|]. split; [exact tl_reach3|].
  split; [vm_compute; reflexivity|]. split; [exact (bool_decide_eq_true_1 _ tl_in3)|]. split; [exact (Permutation_refl _)|].
  split; [vm_compute; reflexivity|]. split; [reflexivity|].
  split; [exact (tl_other (x_root xe xb3) ltac:(vm_compute; reflexivity))|].
  split; [exact (tl_other (cp_root (db_fin (nd_db tl_n3))) ltac:(vm_compute; reflexivity))|].
  exact (tl_other (cp_root (db_just (nd_db tl_n3))) ltac:(vm_compute; reflexivity)).
Qed.
Print Assumptions C79_root_refuted.

(** ... and a head twenty columns to the right is cut off: here eleven blocks above genesis,
    every second slot missing; the trunk ends in dots at its parent. *)
Fixpoint tl_chain (s : State) (slots : list N) : list node_event :=
  match slots with [] => [] | t :: l => let b := x_block xe s t [] in ev_block (x_sb b) :: tl_chain b.2 l end.
Definition tl_deep_es : list node_event := ev_tick (x_at 40 1) false :: tl_chain x_g [2; 4; 6; 8; 10; 12; 14; 16; 18; 20; 22].
Definition tl_n4 := x_node xe x_n0 tl_deep_es.
Definition tl_checks (n : Node) : bool :=
  match ghost_head n, tl_tree n (map_to_list (live_chain (tab n))) with
  | Ok h, Ok out =>
      bool_decide (is_Some (live_chain (tab n) !! h)) && (lenN (shown out) =? 11) &&
      forallb (fun x => negb (h =? x)) (map fst (shown out))
  | _, _ => false
  end.
Lemma tl_checks_sound n : tl_checks n = true -> exists h out,
  ghost_head n = Ok h /\ is_Some (live_chain (tab n) !! h) /\ tl_tree n (map_to_list (live_chain (tab n))) = Ok out /\
  lenN (shown out) = 11 /\ h ∉ map fst (shown out).
Proof.
  unfold tl_checks. destruct (ghost_head n) as [h| |]; [|done|done]. destruct (tl_tree n _) as [out| |]; [|done|done].
  intros H. apply andb_true_iff in H as [H H3]. apply andb_true_iff in H as [H1 H2]. exists h, out.
  apply bool_decide_eq_true in H1. apply N.eqb_eq in H2. split_and!; try done.
  intros Hin. rewrite forallb_forall in H3. specialize (H3 h). rewrite N.eqb_refl in H3.
  apply elem_of_list_In in Hin. by specialize (H3 Hin).
Qed.
Lemma tl_run4 : is_ok (x_run xe x_n0 tl_deep_es) = true.
Proof. vm_compute. reflexivity. Qed.
Lemma tl_checked4 : tl_checks tl_n4 = true.
Proof. vm_compute. reflexivity. Qed.
Theorem C79_depth_refuted : exists E gt vals n it h out,
  good_hash (e_header E) /\ lenN vals <= VALIDATOR_REGISTRY_LIMIT /\ reachable E gt vals n /\
  ghost_head n = Ok h /\ is_Some (live_chain (tab n) !! h) /\
  it ≡ₚ map_to_list (live_chain (tab n)) /\ tl_tree n it = Ok out /\
  lenN (shown out) = 11 /\ h ∉ map fst (shown out).
Proof.
  destruct (tl_checks_sound _ tl_checked4) as (h & out & H1 & H2 & H3 & H4 & H5).
  exists xe, 1000, x_vals, tl_n4, (map_to_list (live_chain (tab tl_n4))), h, out.
  split; [exact xe_good|]. split; [exact x_vals_few|].
  split; [exists x_gen, x_n0, tl_deep_es; exact (conj x_anchor (conj x_started (x_node_run _ _ _ tl_run4)))|].
  exact (conj H1 (conj H2 (conj (Permutation_refl _) (conj H3 (conj H4 H5))))).
Qed.
Print Assumptions C79_depth_refuted.
