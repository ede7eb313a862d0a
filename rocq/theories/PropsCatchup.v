(** C85: a node that lacks blocks gets them from a peer that has them. *)
From Verif Require Import CatchupExamples.

(** The chain [old ++ [tip]] is valid, new to the node and builds on a state the node has;
    nothing waits and no state of the node finalizes a slot of the chain; the peer can
    hand out every block of it.  When the node hears of the tip it asks for the missing
    ancestors, one after another from the tip downwards, each once; after as many
    deliveries as there are blocks nothing is asked for any more, every block is
    imported with the state it leads to, and nothing waits. *)
Theorem C85_catch_up E C gt vals p a old tip post Ws :
  let root sb := block_root (e_header E) (e_body E) (sb_block sb) in
  let bs := old ++ [tip] in
  good_hash (e_header E) -> lenN vals <= VALIDATOR_REGISTRY_LIMIT -> acyclic_hash (e_header E) ->
  (forall l, e_body E l = e_body E [] -> l = []) ->
  actor_reachable E C gt vals a -> clock_fits (ac_node a) -> ac_pend a = ∅ ->
  chained E bs -> valid_tree E (ac_node a) bs post ->
  (forall sb, head bs = Some sb -> has_state (tab (ac_node a)) (b_parent (sb_block sb)) = true) ->
  (forall sb, sb ∈ bs -> t_headers (tab (ac_node a)) !! root sb = None /\
    cp_slot (db_fin (nd_db (ac_node a))) < b_slot (sb_block sb) /\
    5 * b_slot (sb_block sb) <= db_time (nd_db (ac_node a)) + 1) ->
  (forall r s sb, read_state (tab (ac_node a)) r = Ok (Some s) -> sb ∈ bs -> cp_slot (s_finalized s) < b_slot (sb_block sb)) ->
  (forall sb, sb ∈ bs -> get_signed_block (e_body E) (tab p) (root sb) = Some sb) ->
  (length old < length Ws)%nat ->
  Forall (fun x => world_ok x.1 /\ wall_fits x.1 (ac_node a) /\ forall n s v, w_build x.1 n s v = None) Ws ->
  exists a', exchange E C p Ws a [tip] = Ok (a', reverse (map root old), []) /\
    (forall sb, sb ∈ bs -> read_state (tab (ac_node a')) (root sb) = Ok (Some (post (root sb)))) /\
    ac_pend a' = ∅ /\ ac_par a' = ∅.
Proof.
  intros root bs H1 H2 H3 H4 H5 H6 H7 H8 H9 H10 H11 H12 H13.
  exact (catch_up E C gt vals H1 H2 H3 p a bs post H4 H5 H6 H7 H8 H9 H10 H11 H12 H13 old tip Ws eq_refl).
Qed.
Print Assumptions C85_catch_up.

Example C85_nonvacuous :
  let root sb := block_root (e_header ze) (e_body ze) (sb_block sb) in
  let bs := zc_old ++ [x_sb zb3] in
  good_hash (e_header ze) /\ lenN x_vals <= VALIDATOR_REGISTRY_LIMIT /\ acyclic_hash (e_header ze) /\
  (forall l, e_body ze l = e_body ze [] -> l = []) /\
  actor_reachable ze xc 1000 x_vals za1 /\ clock_fits (ac_node za1) /\ ac_pend za1 = ∅ /\
  chained ze bs /\ valid_tree ze (ac_node za1) bs z_post /\
  (forall sb, head bs = Some sb -> has_state (tab (ac_node za1)) (b_parent (sb_block sb)) = true) /\
  (forall sb, sb ∈ bs -> t_headers (tab (ac_node za1)) !! root sb = None /\
    cp_slot (db_fin (nd_db (ac_node za1))) < b_slot (sb_block sb) /\
    5 * b_slot (sb_block sb) <= db_time (nd_db (ac_node za1)) + 1) /\
  (forall r s sb, read_state (tab (ac_node za1)) r = Ok (Some s) -> sb ∈ bs -> cp_slot (s_finalized s) < b_slot (sb_block sb)) /\
  (forall sb, sb ∈ bs -> get_signed_block (e_body ze) (tab zc_peer) (root sb) = Some sb) /\
  (length zc_old < length zc_ws)%nat /\
  Forall (fun x => world_ok x.1 /\ wall_fits x.1 (ac_node za1) /\ forall n s v, w_build x.1 n s v = None) zc_ws /\
  zc_result = Some ([x_root ze zb2; x_root ze zb1], 0%nat, true, true).
Proof.
  exact (conj ze_good (conj x_vals_few (conj ze_acyclic (conj z_empty (conj za1_reach (conj zc_clock (conj zc_pend
    (conj zc_chained (conj zc_valid (conj zc_first (conj (fun sb H => z_new sb (zc_in sb H)) (conj zc_final
    (conj zc_has (conj (le_n 3) (conj zc_fine zc_runs))))))))))))))).
Qed.

(** The same without assuming validity: the peer is any node of the network that has
    imported the chain, and both have the same state below it.  Afterwards the node has
    the peer's state for every block of the chain. *)
Theorem C85_from_peer E C gt vals p a old tip Ws s0 :
  let root sb := block_root (e_header E) (e_body E) (sb_block sb) in
  let bs := old ++ [tip] in
  good_hash (e_header E) -> lenN vals <= VALIDATOR_REGISTRY_LIMIT -> acyclic_hash (e_header E) ->
  (forall l, e_body E l = e_body E [] -> l = []) ->
  actor_reachable E C gt vals a -> clock_fits (ac_node a) -> ac_pend a = ∅ -> reachable E gt vals p ->
  chained E bs ->
  (forall sb, sb ∈ bs -> get_signed_block (e_body E) (tab p) (root sb) = Some sb /\ has_state (tab p) (root sb) = true) ->
  (forall sb, head bs = Some sb ->
    read_state (tab p) (b_parent (sb_block sb)) = Ok (Some s0) /\
    read_state (tab (ac_node a)) (b_parent (sb_block sb)) = Ok (Some s0)) ->
  (forall sb, sb ∈ bs -> t_headers (tab (ac_node a)) !! root sb = None /\
    cp_slot (db_fin (nd_db (ac_node a))) < b_slot (sb_block sb) /\
    5 * b_slot (sb_block sb) <= db_time (nd_db (ac_node a)) + 1) ->
  (forall r s sb, read_state (tab (ac_node a)) r = Ok (Some s) -> sb ∈ bs -> cp_slot (s_finalized s) < b_slot (sb_block sb)) ->
  (length old < length Ws)%nat ->
  Forall (fun x => world_ok x.1 /\ wall_fits x.1 (ac_node a) /\ forall n s v, w_build x.1 n s v = None) Ws ->
  exists a', exchange E C p Ws a [tip] = Ok (a', reverse (map root old), []) /\
    (forall sb, sb ∈ bs -> exists s, read_state (tab p) (root sb) = Ok (Some s) /\
      read_state (tab (ac_node a')) (root sb) = Ok (Some s)) /\
    ac_pend a' = ∅ /\ ac_par a' = ∅.
Proof. exact (from_peer E C gt vals p a old tip Ws s0). Qed.
Print Assumptions C85_from_peer.

(** The other hypotheses are those of C85_nonvacuous. *)
Example C85_peer_nonvacuous :
  let root sb := block_root (e_header ze) (e_body ze) (sb_block sb) in
  let bs := zc_old ++ [x_sb zb3] in
  reachable ze 1000 x_vals zc_peer /\
  (forall sb, sb ∈ bs -> get_signed_block (e_body ze) (tab zc_peer) (root sb) = Some sb /\ has_state (tab zc_peer) (root sb) = true) /\
  (forall sb, head bs = Some sb ->
    read_state (tab zc_peer) (b_parent (sb_block sb)) = Ok (Some (stored_anchor (e_state ze) z_gen)) /\
    read_state (tab (ac_node za1)) (b_parent (sb_block sb)) = Ok (Some (stored_anchor (e_state ze) z_gen))).
Proof. exact (conj zc_peer_reach (conj zc_peer_has zc_base)). Qed.
