(** The blockchain actor: the property theorems C40-C43, C52, C55, C56, C60, C61.
    Statements use the operations of Actor.v and the vocabulary of ActorSpec.v. *)
From Coq Require Import String.
From Verif Require Import ActorExamples.
Local Open Scope N_scope.

(** ** C40 sync status *)

(** [sync_update s cur head seen]: the status (syncing or not) after an observation.
    A stalled network is never reported as syncing; otherwise syncing ends exactly
    at a lag of at most 2 slots and begins exactly at a lag of more than 4. *)
Theorem C40_update cur head seen :
  (forall s, 8 < cur - seen -> sync_update s cur head seen = false) /\
  (cur - seen <= 8 -> (sync_update true cur head seen = false <-> cur - head <= 2)) /\
  (cur - seen <= 8 -> (sync_update false cur head seen = true <-> 4 < cur - head)).
Proof. exact (C40_update_pf cur head seen). Qed.
Print Assumptions C40_update.

Theorem C40_no_flapping s obs :
  Forall (fun o : N * N * N => o.1.1 - o.2 <= 8 /\ 3 <= o.1.1 - o.1.2 <= 4) obs -> sync_run s obs = s.
Proof. exact (C40_no_flapping_pf s obs). Qed.
Print Assumptions C40_no_flapping.

(** In every history the status changes only at ticks, to the update by the wall
    clock slot, the slot of the head and the largest slot of the live chain. *)
Theorem C40_status E C W a m a' fx : actor_step E C W a m = Ok (a', fx) ->
  ac_syncing a' = ac_syncing a \/
  (m = m_tick /\ exists hslot, slot_of_root (ac_node a) (db_head (nd_db (ac_node a))) = Ok hslot /\
     ac_syncing a' = sync_update (ac_syncing a) (wall_slot (ac_node a) (w_now W)) hslot
          (default hslot (max_live_chain_slot (tab (ac_node a))))).
Proof. exact (C40_status_pf E C W a m a' fx). Qed.
Print Assumptions C40_status.

(** With the gate on, votes and blocks are published only at ticks that leave the
    node not syncing. *)
Theorem C40_gate E C a tr a' i W m fx x : actor_run E C a tr a' ->
  tr !! i = Some (W, m, fx) -> x ∈ fx -> published_vote_or_block x ->
  m = m_tick /\ exists a1 a2, actor_run E C a (take i tr) a1 /\ actor_step E C W a1 m = Ok (a2, fx) /\
    (cf_gate C = false \/ ac_syncing a2 = false).
Proof. exact (C40_gate_pf E C a tr a' i W m fx x). Qed.
Print Assumptions C40_gate.

Example C40_nonvacuous :
  sync_run true [(10, 6, 9); (11, 8, 10); (12, 8, 11)] = true /\
  sync_run false [(10, 6, 9); (11, 8, 10); (12, 8, 11)] = false /\
  sync_run false [(10, 5, 9); (10, 7, 9)] = true /\ sync_run false [(10, 5, 9); (10, 8, 9)] = false /\
  actor_run ze xc za0 zs_t zs /\
  (exists W m fx x, zs_t !! 0%nat = Some (W, m, fx) /\ x ∈ fx /\ published_vote_or_block x) /\
  ac_syncing za1 = false /\
  match actor_step ze xc (xw (x_at 6 1) false) za0 m_tick with Ok (a, fx) => (ac_syncing a, fx) | _ => (false, []) end = (true, []).
Proof.
  split_and!; try (vm_compute; reflexivity).
  - exact zs_run.
  - destruct zs_t as [|[[W m] fx] t] eqn:Ht.
    { exfalso. assert (lenN zs_t = 4) as H by (vm_compute; reflexivity). rewrite Ht in H. discriminate. }
    exists W, m, fx. assert (map snd zs_t !! 0%nat = Some [fx_publish_att (mkSA 0 z_data 100)]) as H by (vm_compute; reflexivity).
    rewrite Ht in H. cbn in H. injection H as ->. eexists. split; [reflexivity|]. split; [left|]. left. eexists. reflexivity.
Qed.

(** ** C41 nothing is lost, nothing is imported twice *)

(** The blocks announced as imported during a history: each once, exactly those
    that have a state at the end but not at the beginning, each after its parent. *)
Theorem C41_once E C gt vals a tr a' :
  good_hash (e_header E) -> lenN vals <= VALIDATOR_REGISTRY_LIMIT ->
  actor_reachable E C gt vals a -> actor_run E C a tr a' ->
  let l := imported (effects tr) in
  NoDup l /\
  (forall r, r ∈ l <-> has_state (tab (ac_node a')) r = true /\ has_state (tab (ac_node a)) r = false) /\
  (forall i r, l !! i = Some r -> exists h, t_headers (tab (ac_node a')) !! r = Some h /\
     (has_state (tab (ac_node a)) (h_parent h) = true \/ exists j, (j < i)%nat /\ l !! j = Some (h_parent h))).
Proof. intros H1 H2. exact (C41_once_pf E C gt vals H1 H2 a tr a'). Qed.
Print Assumptions C41_once.

(** All blocks [bs] of a valid tree, delivered in any order, any number of times
    and between any other messages, are imported with the states they lead to and
    none is left waiting.  The blocks are new, above the finalized slot and not
    from the future; the last premise says that no state of the node finalizes a
    slot at or above one of them on another branch. *)
Theorem C41_all E C gt vals a tr a' bs post :
  let root sb := block_root (e_header E) (e_body E) (sb_block sb) in
  good_hash (e_header E) -> lenN vals <= VALIDATOR_REGISTRY_LIMIT -> acyclic_hash (e_header E) ->
  (forall l, e_body E l = e_body E [] -> l = []) ->
  actor_reachable E C gt vals a -> actor_run E C a tr a' ->
  (forall x y, x ∈ bs -> y ∈ bs -> root x = root y -> x = y) ->
  valid_tree E (ac_node a) bs post -> genuine E bs tr ->
  (forall sb, sb ∈ bs -> t_headers (tab (ac_node a)) !! root sb = None /\
    cp_slot (db_fin (nd_db (ac_node a))) < b_slot (sb_block sb) /\
    5 * b_slot (sb_block sb) <= db_time (nd_db (ac_node a)) + 1) ->
  (forall sb, sb ∈ bs -> exists W g fx, (W, m_block sb g, fx) ∈ tr) ->
  (forall sb r s, sb ∈ bs -> read_state (tab (ac_node a')) r = Ok (Some s) ->
    b_slot (sb_block sb) <= cp_slot (s_finalized s) -> strict_anc (tab (ac_node a')) (root sb) r) ->
  forall sb, sb ∈ bs ->
    read_state (tab (ac_node a')) (root sb) = Ok (Some (post (root sb))) /\
    (forall p cs, ac_pend a' !! p = Some cs -> root sb ∉ cs) /\ ac_par a' !! root sb = None.
Proof. intros root H1 H2 H3. exact (C41_all_pf E C gt vals H1 H2 H3 a tr a' bs post). Qed.
Print Assumptions C41_all.

(** B3, B2 and B1, in this order. *)
Example C41_nonvacuous :
  let root sb := block_root (e_header ze) (e_body ze) (sb_block sb) in
  good_hash (e_header ze) /\ lenN x_vals <= VALIDATOR_REGISTRY_LIMIT /\ acyclic_hash (e_header ze) /\
  (forall l, e_body ze l = e_body ze [] -> l = []) /\
  actor_reachable ze xc 1000 x_vals za1 /\ actor_run ze xc za1 za_t2 za2 /\
  (forall x y, x ∈ z_bs -> y ∈ z_bs -> root x = root y -> x = y) /\
  valid_tree ze (ac_node za1) z_bs z_post /\ genuine ze z_bs za_t2 /\
  (forall sb, sb ∈ z_bs -> t_headers (tab (ac_node za1)) !! root sb = None /\
    cp_slot (db_fin (nd_db (ac_node za1))) < b_slot (sb_block sb) /\
    5 * b_slot (sb_block sb) <= db_time (nd_db (ac_node za1)) + 1) /\
  (forall sb, sb ∈ z_bs -> exists W g fx, (W, m_block sb g, fx) ∈ za_t2) /\
  (forall sb r s, sb ∈ z_bs -> read_state (tab (ac_node za2)) r = Ok (Some s) ->
    b_slot (sb_block sb) <= cp_slot (s_finalized s) -> strict_anc (tab (ac_node za2)) (root sb) r) /\
  imported (effects za_t2) = [x_root ze zb1; x_root ze zb2; x_root ze zb3].
Proof.
  refine (conj ze_good (conj x_vals_few (conj ze_acyclic (conj z_empty (conj za1_reach (conj za_run2
    (conj z_uniq (conj z_valid (conj z_genuine (conj z_new (conj z_delivered (conj z_fin _)))))))))))).
  vm_compute. reflexivity.
Qed.

(** ** C42 pending maps *)
Theorem C42_maps E C gt vals a :
  good_hash (e_header E) -> lenN vals <= VALIDATOR_REGISTRY_LIMIT -> acyclic_hash (e_header E) ->
  actor_reachable E C gt vals a -> pending_ok a.
Proof. intros H1 H2 H3. exact (C42_maps_pf E C gt vals H1 H2 H3 a). Qed.
Print Assumptions C42_maps.

(** A block at or below the finalized slot, or from the future, is not imported and
    not stored; every block waiting for it, directly or not, is forgotten, and
    nothing else is. *)
Theorem C42_discard E C gt vals W a sb g :
  let n := ac_node a in let r := block_root (e_header E) (e_body E) (sb_block sb) in
  good_hash (e_header E) -> lenN vals <= VALIDATOR_REGISTRY_LIMIT -> acyclic_hash (e_header E) ->
  actor_reachable E C gt vals a -> world_ok W -> clock_fits n ->
  b_slot (sb_block sb) <= cp_slot (db_fin (nd_db n)) \/ db_time (nd_db n) + 1 < 5 * b_slot (sb_block sb) ->
  exists a' fx, actor_step E C W a (m_block sb g) = Ok (a', fx) /\
    imported fx = [] /\
    t_headers (tab (ac_node a')) = t_headers (tab n) /\
    (forall x, has_state (tab (ac_node a')) x = has_state (tab n) x) /\
    (forall k cs, ac_pend a' !! k = Some cs <-> ac_pend a !! k = Some cs /\ k <> r /\ ~ under (ac_pend a) r k) /\
    (forall k m, ac_par a' !! k = Some m <-> ac_par a !! k = Some m /\ ~ under (ac_pend a) r k).
Proof. intros n r H1 H2 H3. exact (C42_discard_pf E C gt vals H1 H2 H3 W a sb g). Qed.
Print Assumptions C42_discard.

(** No message makes the actor loop forever ([Err tt] in the model). *)
Theorem C42_terminates E C gt vals W a m :
  good_hash (e_header E) -> lenN vals <= VALIDATOR_REGISTRY_LIMIT -> acyclic_hash (e_header E) ->
  actor_reachable E C gt vals a -> world_ok W -> clock_fits (ac_node a) -> wall_fits W (ac_node a) ->
  actor_step E C W a m <> Err tt.
Proof. intros H1 H2 H3. exact (C42_terminates_pf E C gt vals H1 H2 H3 W a m). Qed.
Print Assumptions C42_terminates.

(** B3 and B2 wait for B1 and B4' for a block of slot 1000: that one arrives. *)
Example C42_nonvacuous :
  actor_reachable ze xc 1000 x_vals zd /\ clock_fits (ac_node zd) /\
  wall_fits (xw (x_at 40 1) false) (ac_node zd) /\
  db_time (nd_db (ac_node zd)) + 1 < 5 * b_slot z_early /\
  (size (ac_pend zd), size (ac_par zd)) = (3, 3)%nat /\
  under (ac_pend zd) (block_root (e_header ze) (e_body ze) z_early) (block_root (e_header ze) (e_body ze) z_child) /\
  match actor_step ze xc (xw (x_at 40 1) false) zd (m_block (mkSB z_early 7) true) with
  | Ok (a, _) => (size (ac_pend a), size (ac_par a)) | _ => (0, 0)%nat end = (2, 2)%nat.
Proof.
  split_and!; try (vm_compute; reflexivity).
  - exact zd_reach.
  - exact zd_under.
Qed.

(** ** C43 ticks *)

(** The wait after [now]: at most one interval once genesis has passed, up to
    genesis before; it ends at the first boundary after [now]. *)
Theorem C43_wait now genesis :
  let d := ms_until_next_interval now genesis in
  (genesis <= now -> 1 <= d <= 800) /\ boundary genesis (now + d) /\
  (forall t, boundary genesis t -> now < t -> now + d <= t).
Proof. exact (C43_wait_pf now genesis). Qed.
Print Assumptions C43_wait.

(** A handler that ran from [now] to [after]: if it overran a boundary the next tick
    runs at once, otherwise at the first boundary after [now]. *)
Theorem C43_schedule now after genesis :
  now <= after ->
  ((exists t, boundary genesis t /\ now < t <= after) -> next_tick_delay now after genesis = 0) /\
  (~ (exists t, boundary genesis t /\ now < t <= after) ->
     after < after + next_tick_delay now after genesis /\
     boundary genesis (after + next_tick_delay now after genesis) /\
     forall t, boundary genesis t -> now < t -> after + next_tick_delay now after genesis <= t).
Proof. exact (C43_schedule_pf now after genesis). Qed.
Print Assumptions C43_schedule.

Example C43_nonvacuous :
  next_tick_delay 10900 11000 10000 = 600 /\ next_tick_delay 10900 11650 10000 = 0 /\
  next_tick_delay 10800 10800 10000 = 800 /\ next_tick_delay 9000 9100 10000 = 900 /\
  boundary 10000 11600.
Proof. split_and!; try (vm_compute; reflexivity). by exists 2. Qed.

(** ** C52 chain events *)
Theorem C52_topics s t : topic_of_str s = Some t <-> s = topic_str t.
Proof. exact (C52_topics_pf s t). Qed.
Print Assumptions C52_topics.

(** The events for a change of the store: at most one for the head, then at most one
    for the justified, then at most one for the finalized checkpoint. *)
Theorem C52_diff old new wall :
  exists hd js fs, diff_and_emit old new wall = (hd ++ js ++ fs)%list /\
  (forall e, e ∈ hd <-> exists h, db_head new <> db_head old /\ t_headers (db_tab new) !! db_head new = Some h /\
     wall <= h_slot h + 32 /\ e = CeHead (h_slot h) (db_head new) (h_state_root h)) /\
  (forall e, e ∈ js <-> exists h, db_just new <> db_just old /\
     t_headers (db_tab new) !! cp_root (db_just new) = Some h /\
     e = CeJustified (cp_slot (db_just new)) (cp_root (db_just new)) (h_state_root h)) /\
  (forall e, e ∈ fs <-> exists h, db_fin new <> db_fin old /\
     t_headers (db_tab new) !! cp_root (db_fin new) = Some h /\
     e = CeFinalized (cp_slot (db_fin new)) (cp_root (db_fin new)) (h_state_root h)) /\
  (length hd <= 1)%nat /\ (length js <= 1)%nat /\ (length fs <= 1)%nat.
Proof. exact (C52_diff_pf old new wall). Qed.
Print Assumptions C52_diff.

(** Who knows the checkpoints at some point and follows the events of any history
    knows the checkpoints at its end. *)
Theorem C52_heard E C gt vals a tr a' :
  good_hash (e_header E) -> lenN vals <= VALIDATOR_REGISTRY_LIMIT ->
  actor_reachable E C gt vals a -> actor_run E C a tr a' ->
  heard_justified (db_just (nd_db (ac_node a))) (effects tr) = db_just (nd_db (ac_node a')) /\
  heard_finalized (db_fin (nd_db (ac_node a))) (effects tr) = db_fin (nd_db (ac_node a')).
Proof. intros H1 H2. exact (C52_heard_pf E C gt vals H1 H2 a tr a'). Qed.
Print Assumptions C52_heard.

Example C52_nonvacuous :
  topic_of_str "finalized_checkpoint" = Some TFinalizedCheckpoint /\ topic_of_str "heads" = None /\
  actor_reachable ze xc 1000 x_vals za1 /\ actor_run ze xc za1 za_t2 za2 /\
  (cp_slot (db_just (nd_db (ac_node za1))), cp_slot (db_just (nd_db (ac_node za2)))) = (0, 2) /\
  (cp_slot (db_fin (nd_db (ac_node za1))), cp_slot (db_fin (nd_db (ac_node za2)))) = (0, 1) /\
  map topic_of (diff_and_emit (nd_db (ac_node za1)) (nd_db (ac_node za2)) 30)
    = [THead; TJustifiedCheckpoint; TFinalizedCheckpoint] /\
  map topic_of (diff_and_emit (nd_db (ac_node za1)) (nd_db (ac_node za2)) 36)
    = [TJustifiedCheckpoint; TFinalizedCheckpoint].
Proof.
  refine (conj eq_refl (conj eq_refl (conj za1_reach (conj za_run2 _)))).
  split_and!; vm_compute; reflexivity.
Qed.

(** ** C55 early aggregation *)
Theorem C55_expected n c subnets : 0 < c -> NoDup subnets ->
  expected_votes n c subnets = N.of_nat (length (assigned n c subnets)).
Proof. exact (C55_expected_pf n c subnets). Qed.
Print Assumptions C55_expected.

(** A session starts either at a tick of the aggregation interval, or before it in
    the 600 ms window and with votes for one attestation of the slot from two
    thirds of the validators of the subscribed subnets. *)
Theorem C55_start E C W a m a' fx slot : actor_step E C W a m = Ok (a', fx) -> slot ∈ sessions fx ->
  0 < cf_committees C -> NoDup (cf_subnets C) ->
  let ms := w_now W - db_gt (nd_db (ac_node a)) * 1000 in
  sessions fx = [slot] /\ slot = ms / 4000 /\ ac_session a <> Some slot /\ ac_session a' = Some slot /\ w_aggregator W = true /\
  ((m = m_tick /\ 1600 <= ms mod 4000 < 2400) \/
   (m <> m_tick /\ 1000 <= ms mod 4000 < 1600 /\
    exists s k e, head_state (ac_node a') = Ok s /\ bf_data (nd_gossip (ac_node a')) !! k = Some e /\
      ad_slot (ge_data e) = slot /\ 0 < ge_size e /\
      2 * N.of_nat (length (assigned (lenN (s_validators s)) (cf_committees C) (cf_subnets C))) <= 3 * ge_size e)).
Proof. exact (C55_start_pf E C [] (N.le_0_l _) W a m a' fx slot). Qed.
Print Assumptions C55_start.

(** While the wall clock does not go back, the slots of the started sessions
    increase: never two for one slot. *)
Theorem C55_once E C gt vals a tr a' :
  good_hash (e_header E) -> lenN vals <= VALIDATOR_REGISTRY_LIMIT ->
  actor_reachable E C gt vals a -> actor_run E C a tr a' -> clock_forward tr ->
  StronglySorted N.lt (sessions (effects tr)).
Proof. intros H1 H2. exact (C55_once_pf E C gt vals H1 H2 a tr a'). Qed.
Print Assumptions C55_once.

Example C55_nonvacuous :
  actor_run ze xc za0 zs_t zs /\ clock_forward zs_t /\ sessions (effects zs_t) = [1; 2] /\
  expected_votes 10 4 [1; 3; 7] = 5 /\
  match actor_step ze xc (xw (x_at 1 1 + 300) true) zs1 (m_attestation (mkSA 1 z_data 101)) with
  | Ok (_, fx) => sessions fx | _ => [] end = [1] /\
  match actor_step ze xc (xw (x_at 1 1 + 199) true) zs1 (m_attestation (mkSA 1 z_data 101)) with
  | Ok (_, fx) => sessions fx | _ => [] end = [].
Proof. refine (conj zs_run (conj zs_clock (conj zs_sessions _))). split_and!; vm_compute; reflexivity. Qed.

(** ** C56 stale sessions *)

(** A worker's aggregate has an effect only if it belongs to the last started session. *)
Theorem C56_current E C n0 tr a W id data p parts keys a' fx :
  actor_run E C (start_actor n0) tr a ->
  actor_step E C W a (m_produced id data p parts keys) = Ok (a', fx) ->
  last (sessions (effects tr)) = Some id \/ (a' = a /\ fx = []).
Proof. exact (C56_current_pf E C n0 tr a W id data p parts keys a' fx). Qed.
Print Assumptions C56_current.

Theorem C56_stale E C gt vals n0 tr a W id later data p parts keys :
  good_hash (e_header E) -> lenN vals <= VALIDATOR_REGISTRY_LIMIT ->
  reachable E gt vals n0 -> actor_run E C (start_actor n0) tr a -> clock_forward tr ->
  later ∈ sessions (effects tr) -> id < later ->
  actor_step E C W a (m_produced id data p parts keys) = Ok (a, []).
Proof. intros H1 H2. exact (C56_stale_pf E C gt vals H1 H2 n0 tr a W id later data p parts keys). Qed.
Print Assumptions C56_stale.

Example C56_nonvacuous :
  reachable ze 1000 x_vals z_n0 /\ actor_run ze xc (start_actor z_n0) zs_t zs /\ clock_forward zs_t /\
  2 ∈ sessions (effects zs_t) /\
  match actor_step ze xc (xw (x_at 2 3) true) zs (m_produced 2 z_data (mkProof [true; true] 7) [0; 1] []) with
  | Ok (_, fx) => lenN fx | _ => 0 end = 2.
Proof.
  refine (conj z_reach0 (conj zs_run (conj zs_clock (conj _ _)))).
  - rewrite zs_sessions. right. left.
  - vm_compute. reflexivity.
Qed.

(** ** C60 no message makes the actor panic *)

(** Partial: a panic happens only for a block with an unknown parent that is, or has
    among its stored ancestors, a block on a known state at least 21600 slots old
    that cannot be read back. *)
Theorem C60_no_panic_partial E C gt vals W a m :
  good_hash (e_header E) -> lenN vals <= VALIDATOR_REGISTRY_LIMIT -> acyclic_hash (e_header E) ->
  actor_reachable E C gt vals a -> world_ok W -> clock_fits (ac_node a) -> wall_fits W (ac_node a) ->
  (exists a' fx, actor_step E C W a m = Ok (a', fx)) \/
  (actor_step E C W a m = Panic /\ exists sb g r h, m = m_block sb g /\
     has_state (tab (ac_node a)) (b_parent (sb_block sb)) = false /\
     (r = b_parent (sb_block sb) \/ strict_anc (tab (ac_node a)) r (b_parent (sb_block sb))) /\
     t_headers (tab (ac_node a)) !! r = Some h /\ has_state (tab (ac_node a)) (h_parent h) = true /\
     get_signed_block (e_body E) (tab (ac_node a)) r = None /\
     h_slot h + 21600 <= current_slot (nd_db (ac_node a))).
Proof. intros H1 H2 H3. exact (C60_pf E C gt vals H1 H2 H3 W a m). Qed.
Print Assumptions C60_no_panic_partial.

(** Missing, because it does happen: an invalid block of slot 2 was stored while its
    parent was unknown and rejected later; its proof is pruned in slot 21603; a
    block naming it as parent then makes the actor panic. *)
Theorem C60_refuted :
  exists E C gt vals W a m, good_hash (e_header E) /\ lenN vals <= VALIDATOR_REGISTRY_LIMIT /\
    acyclic_hash (e_header E) /\ actor_reachable E C gt vals a /\ world_ok W /\ clock_fits (ac_node a) /\
    wall_fits W (ac_node a) /\ actor_step E C W a m = Panic.
Proof.
  exists ze, xc, 1000, x_vals, (xw (x_at 21603 1) false), zp, (m_block zy true).
  exact (conj ze_good (conj x_vals_few (conj ze_acyclic (conj zp_reach (conj (xw_ok _ _) (conj zp_clock (conj zp_wall zp_panic))))))).
Qed.
Print Assumptions C60_refuted.

(** ** C61 forged copies do not hinder the import of a valid block *)

(** False without [genuine] in C41_all (which is the proved part): B2 waits for B1,
    a copy of B2 with an invalid proof replaces the stored proof, and when B1
    arrives B2 is rejected and forgotten. *)
Theorem C61_refuted :
  exists E C gt vals a tr a' bs post,
    let root sb := block_root (e_header E) (e_body E) (sb_block sb) in
    good_hash (e_header E) /\ lenN vals <= VALIDATOR_REGISTRY_LIMIT /\ acyclic_hash (e_header E) /\
    (forall l, e_body E l = e_body E [] -> l = []) /\
    actor_reachable E C gt vals a /\ actor_run E C a tr a' /\
    (forall x y, x ∈ bs -> y ∈ bs -> root x = root y -> x = y) /\
    valid_tree E (ac_node a) bs post /\
    (forall sb, sb ∈ bs -> t_headers (tab (ac_node a)) !! root sb = None /\
      cp_slot (db_fin (nd_db (ac_node a))) < b_slot (sb_block sb) /\
      5 * b_slot (sb_block sb) <= db_time (nd_db (ac_node a)) + 1) /\
    (forall sb, sb ∈ bs -> exists W g fx, (W, m_block sb g, fx) ∈ tr) /\
    (forall sb r s, sb ∈ bs -> read_state (tab (ac_node a')) r = Ok (Some s) ->
      b_slot (sb_block sb) <= cp_slot (s_finalized s) -> strict_anc (tab (ac_node a')) (root sb) r) /\
    (forall W m fx, (W, m, fx) ∈ tr -> forall n slot v, w_build W n slot v = None) /\
    exists sb, sb ∈ bs /\ has_state (tab (ac_node a')) (root sb) = false /\ ac_pend a' = ∅.
Proof. exact z_forged. Qed.
Print Assumptions C61_refuted.
