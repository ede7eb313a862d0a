(** The state transition, the clock and the time checks in 64-bit arithmetic. *)
From Verif Require Import STFExamples STFMore WidthSpec WidthProofs STFThms.
Local Open Scope N_scope.

(** ** C89 no overflow *)

(** On a chain from genesis, no block whatever makes an operation of the state transition
    overflow: the outcome, be it a state or an error, is the one of exact arithmetic, and
    there is no panic. *)
Theorem C89_transition hash_state hash_header hash_body gt vals s bs b :
  lenN vals <= VALIDATOR_REGISTRY_LIMIT ->
  chain hash_state hash_header hash_body gt vals s bs -> block_fits b ->
  state_transition64 hash_state hash_header hash_body s b = state_transition hash_state hash_header hash_body s b /\
  state_transition64 hash_state hash_header hash_body s b <> Panic.
Proof.
  intros Hv Hc [Hb Ha]. rewrite (transition_chain_same hash_state hash_header hash_body gt vals s bs b Hv Hc Hb Ha).
  split; [reflexivity|]. exact (chain_no_panic hash_state hash_header hash_body gt vals s bs b Hc Hv).
Qed.
Print Assumptions C89_transition.

(** With a genesis time below 2^64 / 1000 seconds, a tick at any time computes the interval
    due without overflow.  The interval the clock then shows is at most 2^64 / 800. *)
Theorem C89_clock gt ts time : gt * 1000 < two64 -> ts < two64 -> time <= two64 / 800 ->
  exists from, tick_times64 gt ts time = Ok ((ts - gt * 1000) / 800, from) /\
    (ts - gt * 1000) / 800 <= two64 / 800 /\
    (from = time \/ from + 5 = (ts - gt * 1000) / 800) /\ wall_slot64 gt ts = Ok ((ts - gt * 1000) / 4000).
Proof.
  intros H1 H2 H3. eexists. split; [exact (tick_times_pf gt ts time H1)|]. split; [exact (due_bound gt ts H2)|].
  split; [|exact (wall_slot_pf gt ts H1)]. destruct (N.ltb_spec 5 ((ts - gt * 1000) / 800 - time)); [right; lia|left; reflexivity].
Qed.
Print Assumptions C89_clock.

(** The start of every slot that has begun is computed without overflow. *)
Theorem C89_slot_start gt ts slot : gt * 1000 < two64 -> ts < two64 -> slot <= (ts - gt * 1000) / 4000 ->
  slot_start64 gt slot = Ok (gt * 1000 + slot * 4000).
Proof. exact (slot_start_pf gt ts slot). Qed.
Print Assumptions C89_slot_start.

(** The time checks of votes and blocks decide as exact arithmetic does, whatever slot a peer
    claims: a slot near 2^64 does not wrap around to one that has begun. *)
Theorem C89_gates time slot : time <= two64 / 800 ->
  too_early64 time slot = Ok (time + 1 <? 5 * slot) /\ beyond_horizon64 time slot = Ok (time / 5 + 1 <? slot).
Proof. intros H. exact (conj (too_early_pf time slot H) (beyond_horizon_pf time slot H)). Qed.
Print Assumptions C89_gates.

(** The bound on the genesis time is needed: nothing checks it, and a larger one overflows at
    every tick. *)
Theorem C89_genesis_time gt ts time : two64 <= gt * 1000 -> tick_times64 gt ts time = Panic.
Proof. intros H. unfold tick_times64, cmul. apply N.ltb_ge in H as ->. reflexivity. Qed.
Print Assumptions C89_genesis_time.

(** Non-vacuity: a block that is accepted on a chain with justified and finalized slots; one
    with a slot and a vote of 2^64 - 1; a clock 30 intervals behind. *)
Definition far_block : Block := mkBlock (two64 - 1) 0 0 0
  [mkAtt [true] (mkAD (two64 - 1) (mkCp 1 (two64 - 1)) (mkCp 1 (two64 - 1)) (mkCp 1 0))].
Example C89_accepts : exists s' : State,
  t_chain 1000 (toy_vals 3) ex_state ex_blocks /\ block_fits next_block /\ block_fits far_block /\
  state_transition64 toy_state toy_header toy_body ex_state next_block = Ok s' /\
  state_transition64 toy_state toy_header toy_body ex_state far_block = Err InvalidParent.
Proof.
  eexists. split; [exact ex_chain|]. split; [apply fits_check; vm_compute; reflexivity|].
  split; [apply fits_check; vm_compute; reflexivity|]. split; vm_compute; reflexivity.
Qed.
Example C89_ticks : tick_times64 1000 1024000 0 = Ok (30, 25) /\ too_early64 30 (two64 - 1) = Ok true /\
  too_early64 30 6 = Ok false /\ beyond_horizon64 30 (two64 - 1) = Ok true /\ slot_start64 1000 6 = Ok 1024000 /\
  tick_times64 (two64 - 1) 0 0 = Panic.
Proof. repeat split; vm_compute; reflexivity. Qed.
