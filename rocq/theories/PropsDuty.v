(** The duties of the own validators, and which blocks are asked from peers. *)
From Verif Require Import DutyExamples.
Local Open Scope N_scope.

(** ** C42: at most one block is asked for, an ancestor the node knows nothing of,
    while the delivered block waits for its parent. *)
Theorem C42_fetch E C gt vals W a sb g a' fx :
  good_hash (e_header E) -> lenN vals <= VALIDATOR_REGISTRY_LIMIT -> acyclic_hash (e_header E) ->
  actor_reachable E C gt vals a -> world_ok W -> clock_fits (ac_node a) ->
  actor_step E C W a (m_block sb g) = Ok (a', fx) ->
  let n := ac_node a in let n' := ac_node a' in let b := sb_block sb in
  fetched fx = [] \/
  exists r, fetched fx = [r] /\
    cp_slot (db_fin (nd_db n)) < b_slot b /\ 5 * b_slot b <= db_time (nd_db n) + 1 /\
    has_state (tab n) (b_parent b) = false /\
    t_headers (tab n') !! r = None /\
    strict_anc (tab n') r (block_root (e_header E) (e_body E) b) /\
    exists cs, ac_pend a' !! b_parent b = Some cs /\ block_root (e_header E) (e_body E) b ∈ cs.
Proof. exact (C42_fetch_pf E C gt vals W a sb g a' fx). Qed.
Print Assumptions C42_fetch.

(** A block that is neither too old nor too early and has no imported ancestor
    makes the node ask. *)
Theorem C42_asks E C gt vals W a sb g a' fx :
  good_hash (e_header E) -> lenN vals <= VALIDATOR_REGISTRY_LIMIT -> acyclic_hash (e_header E) ->
  actor_reachable E C gt vals a -> world_ok W -> clock_fits (ac_node a) ->
  actor_step E C W a (m_block sb g) = Ok (a', fx) ->
  let n := ac_node a in let b := sb_block sb in
  cp_slot (db_fin (nd_db n)) < b_slot b -> 5 * b_slot b <= db_time (nd_db n) + 1 ->
  (forall x, x = b_parent b \/ strict_anc (tab n) x (b_parent b) -> has_state (tab n) x = false) ->
  exists r, fetched fx = [r].
Proof. exact (C42_asks_pf E C gt vals W a sb g a' fx). Qed.
Print Assumptions C42_asks.

(** Nothing else makes it ask. *)
Theorem C42_only_blocks E C W a m a' fx :
  (forall sb g, m <> m_block sb g) -> actor_step E C W a m = Ok (a', fx) -> fetched fx = [].
Proof. exact (other_fetch E C W a m a' fx). Qed.
Print Assumptions C42_only_blocks.

(** B3 makes the node ask for B2, B2 for B1, and B1 for nothing. *)
Example C42_fetch_nonvacuous :
  actor_reachable ze xc 1000 x_vals za1 /\ clock_fits (ac_node za1) /\
  map (fun x => fetched x.2) (xl_log ze xc za1 (map Some za_m2)) = [[x_root ze zb2]; [x_root ze zb1]; []].
Proof. split; [exact za1_reach|]. split; vm_compute; reflexivity. Qed.

(** ** C55: a session makes two aggregates, or one when an own validator proposes in the
    next slot and is allowed to. *)
Theorem C55_size E C gt vals W a m a' fx slot k :
  good_hash (e_header E) -> lenN vals <= VALIDATOR_REGISTRY_LIMIT -> vals <> [] ->
  reachable E gt vals (ac_node a) -> actor_step E C W a m = Ok (a', fx) -> fx_session slot k ∈ fx ->
  (k = 1 \/ k = 2) /\
  (k = 1 <-> (exists v, v ∈ cf_own C /\ v = (slot + 1) mod lenN vals) /\ (cf_gate C = false \/ ac_syncing a' = false)).
Proof. intros H1 H2 H3 Hr Hs. exact (session_size E C gt vals H1 H2 W a m a' fx slot k Hr H3 Hs). Qed.
Print Assumptions C55_size.

(** At the aggregation interval an aggregator that has not started the slot's
    session starts it, unless there is nothing to aggregate. *)
Theorem C55_held E C gt vals W a a' fx :
  good_hash (e_header E) -> lenN vals <= VALIDATOR_REGISTRY_LIMIT -> vals <> [] ->
  reachable E gt vals (ac_node a) -> actor_step E C W a m_tick = Ok (a', fx) ->
  let i := wall_interval W a in
  db_time (nd_db (ac_node a)) < i -> i mod 5 = 2 -> w_aggregator W = true -> ac_session a <> Some (i / 5) ->
  exists k, if w_jobs W (ac_node a') (i / 5) k then fx_session (i / 5) k ∈ fx else sessions fx = [].
Proof. intros H1 H2 H3 Hr Hs. exact (session_held E C gt vals H1 H2 W a a' fx Hr H3 Hs). Qed.
Print Assumptions C55_held.

Example C55_size_nonvacuous :
  reachable ze 1000 x_vals (ac_node za0) /\ 0 ∈ cf_own xc /\ 0 = (2 + 1) mod lenN x_vals /\
  map (fun x => omap (fun y => match y with fx_session s k => Some (s, k) | _ => None end) x.2)
    (xl_log ze xc za0 [Some (xw (x_at 1 2) true, m_tick); Some (xw (x_at 2 2) true, m_tick)]) =
  [[(1, 2)]; [(2, 1)]].
Proof. split; [exact z_reach0|]. split; [by apply elem_of_list_singleton|]. split; vm_compute; reflexivity. Qed.

(** ** C65: over the whole life of the node, restarts and jumps of the wall clock
    included, no validator's votes of one slot are sent twice, ... *)
Theorem C65_votes E C gt vals a l a' :
  good_hash (e_header E) -> lenN vals <= VALIDATOR_REGISTRY_LIMIT ->
  reachable E gt vals (ac_node a) -> NoDup (cf_own C) -> lifetime E C a l a' ->
  NoDup (map (fun sa => (sa_validator sa, ad_slot (sa_data sa))) (votes_out (sent l))).
Proof. intros H1 H2 H3 H4 H5. exact (proj1 (life_out E C gt vals H1 H2 a l a' H3 H4 H5)). Qed.
Print Assumptions C65_votes.

(** ... nor two blocks of one slot. *)
Theorem C65_blocks E C gt vals a l a' :
  good_hash (e_header E) -> lenN vals <= VALIDATOR_REGISTRY_LIMIT ->
  reachable E gt vals (ac_node a) -> NoDup (cf_own C) -> lifetime E C a l a' ->
  Forall (fun x => builds_slot x.1.1.2) l ->
  NoDup (map (fun sb => b_slot (sb_block sb)) (blocks_out (sent l))).
Proof.
  intros H1 H2 H3 H4 H5 H6. exact (proj1 (proj2 (proj2 (life_out E C gt vals H1 H2 a l a' H3 H4 H5)) H6)).
Qed.
Print Assumptions C65_blocks.

(** At most one message of the whole life makes the node ask its keys for votes of a
    slot, ... *)
Theorem C65_vote_once E C gt vals a l a' s i j x y :
  good_hash (e_header E) -> lenN vals <= VALIDATOR_REGISTRY_LIMIT ->
  reachable E gt vals (ac_node a) -> lifetime E C a l a' ->
  (i < j)%nat -> l !! i = Some x -> l !! j = Some y -> asks_vote E C s x -> ~ asks_vote E C s y.
Proof. intros H1 H2. exact (vote_once E C gt vals H1 H2 a l a' s i j x y). Qed.
Print Assumptions C65_vote_once.

(** ... or for a block of a slot. *)
Theorem C65_block_once E C gt vals a l a' s i j x y :
  good_hash (e_header E) -> lenN vals <= VALIDATOR_REGISTRY_LIMIT ->
  reachable E gt vals (ac_node a) -> lifetime E C a l a' ->
  (i < j)%nat -> l !! i = Some x -> l !! j = Some y -> asks_block E C s x -> ~ asks_block E C s y.
Proof. intros H1 H2. exact (block_once E C gt vals H1 H2 a l a' s i j x y). Qed.
Print Assumptions C65_block_once.

(** Eight ticks and two restarts, with the clock stepping back and ticks repeated after the restarts. *)
Example C65_nonvacuous :
  reachable ze 1000 x_vals (ac_node za0) /\ NoDup (cf_own xc) /\ lifetime ze xc za0 yd_l yd /\
  map (fun sa => (sa_validator sa, ad_slot (sa_data sa))) (votes_out (sent yd_l)) = [(0, 1); (0, 2); (0, 3)] /\
  map (fun sb => b_slot (sb_block sb)) (blocks_out (sent yd_l)) = [3] /\
  (length yd_l, map (fun x => length (votes_out x.2)) yd_l) = (8, [1; 0; 0; 1; 0; 0; 0; 1])%nat.
Proof.
  split; [exact z_reach0|]. split; [apply NoDup_singleton|]. split; [exact yd_life|].
  split; [|split]; vm_compute; reflexivity.
Qed.
Example C65_builds now : builds_slot (xw_b now).
Proof. exact (xw_b_slot now). Qed.
(** The first tick asks for votes of slot 1: without the key nothing is sent. *)
Example C65_asks :
  exists x, yd_l !! 0%nat = Some x /\ asks_vote ze xc 1 x.
Proof.
  exists (za0, xw_b (x_at 1 1), m_tick, match actor_step ze xc (xw_b (x_at 1 1)) za0 m_tick with Ok x => x.2 | _ => [] end).
  split; [reflexivity|].
  exists (fun v d => if ad_slot d =? 1 then None else Some (100 + v)). split.
  - intros v d Hd. apply N.eqb_neq in Hd. by rewrite Hd.
  - intros H. apply (f_equal (fun r => match r with Ok x => length (votes_out x.2) | _ => 9%nat end)) in H. vm_compute in H. done.
Qed.

(** ** C66: at the voting interval every own validator whose key signs votes, for the
    head of the node's chain, unless the node knows that it is behind. *)
Theorem C66_votes E C gt vals W a a' fx :
  good_hash (e_header E) -> lenN vals <= VALIDATOR_REGISTRY_LIMIT -> vals <> [] ->
  reachable E gt vals (ac_node a) -> actor_step E C W a m_tick = Ok (a', fx) ->
  let i := wall_interval W a in
  db_time (nd_db (ac_node a)) < i -> i mod 5 = 1 -> cf_gate C = false \/ ac_syncing a' = false ->
  exists data, produce_attestation_data (nd_db (ac_node a')) (i / 5) = Ok data /\ ad_slot data = i / 5 /\
    cp_root (ad_head data) = db_head (nd_db (ac_node a')) /\
    votes_out fx = omap (fun v => mkSA v data <$> w_sign W v data) (cf_own C).
Proof. exact (C66_votes_pf E C gt vals W a a' fx). Qed.
Print Assumptions C66_votes.

(** In the last interval of a slot the own validator whose turn the next slot is builds a
    block on the proposal head; when the block is importable it is imported and sent. *)
Theorem C66_block E C gt vals W a a' fx v :
  good_hash (e_header E) -> lenN vals <= VALIDATOR_REGISTRY_LIMIT -> vals <> [] ->
  reachable E gt vals (ac_node a) -> actor_step E C W a m_tick = Ok (a', fx) ->
  let i := wall_interval W a in let slot := i / 5 + 1 in
  db_time (nd_db (ac_node a)) < i -> i mod 5 = 4 -> cf_gate C = false \/ ac_syncing a' = false ->
  v ∈ cf_own C -> v = slot mod lenN vals ->
  exists n n1 h, reachable E gt vals n /\ db_time (nd_db n) = i /\
    get_proposal_head E n slot = Ok (n1, h) /\ reachable E gt vals n1 /\
    forall sb n2, w_build W n1 slot v = Some sb -> on_block E n1 sb = Ok n2 ->
      blocks_out fx = [sb] /\
      has_state (tab (ac_node a')) (block_root (e_header E) (e_body E) (sb_block sb)) = true.
Proof. exact (C66_block_pf E C gt vals W a a' fx v). Qed.
Print Assumptions C66_block.

Example C66_nonvacuous :
  let W1 := xw_b (x_at 1 1) in let W2 := xw_b (x_at 2 4) in
  reachable ze 1000 x_vals (ac_node za0) /\ reachable ze 1000 x_vals (ac_node yd5) /\
  db_time (nd_db (ac_node za0)) < wall_interval W1 za0 /\ wall_interval W1 za0 mod 5 = 1 /\
  db_time (nd_db (ac_node yd5)) < wall_interval W2 yd5 /\ wall_interval W2 yd5 mod 5 = 4 /\
  0 = (wall_interval W2 yd5 / 5 + 1) mod lenN x_vals /\
  match actor_step ze xc W1 za0 m_tick with
  | Ok (a', fx) => (ac_syncing a', map sa_validator (votes_out fx)) | _ => (true, []) end = (false, [0]) /\
  match actor_step ze xc W2 yd5 m_tick with
  | Ok (a', fx) => (ac_syncing a', map (fun sb => b_slot (sb_block sb)) (blocks_out fx)) | _ => (true, []) end = (false, [3]).
Proof.
  cbn zeta. split; [exact z_reach0|]. split; [exact yd5_reach|]. split_and!; vm_compute; reflexivity.
Qed.
