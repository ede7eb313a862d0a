(** The validators' one-time signing keys. *)
From Verif Require Import XmssExamples.
Local Open Scope N_scope.

(** ** C72: preparing a key for a slot always ends.  It succeeds exactly for the slots from
    the start of the prepared window to the end of the key's activation interval; then the
    window covers the slot and has moved no further than needed.  Otherwise the window is
    left at the end of the interval. *)
Theorem C72_window k slot : key_ok k ->
  exists k' ok, advance_loop (advance_fuel k) k slot = Some (k', ok) /\ advance_key k slot = (k', ok) /\
    k_id k' = k_id k /\ k_end k' = k_end k /\
    (ok = true <-> key_from k <= slot < key_until k) /\
    (ok = true -> key_from k' <= slot < key_from k' + 131072 /\ (k' = k \/ key_from k' + 65536 <= slot)) /\
    (ok = false -> key_from k' + 131072 = key_until k').
Proof. exact (window_pf k slot). Qed.
Print Assumptions C72_window.

Example C72_window_nonvacuous :
  map (advance_key (mkKey 10 1 9)) [65535; 65536; 196607; 196608; 300000; 589823; 589824] =
  [(mkKey 10 7 9, false); (mkKey 10 1 9, true); (mkKey 10 1 9, true); (mkKey 10 2 9, true); (mkKey 10 3 9, true);
   (mkKey 10 7 9, true); (mkKey 10 7 9, false)].
Proof. vm_compute. reflexivity. Qed.

(** Over the whole life of the node, restarts and jumps of the wall clock included, no
    key is asked twice for one epoch. *)
Theorem C72_once E C gt vals X K0 a l a' K :
  good_hash (e_header E) -> lenN vals <= VALIDATOR_REGISTRY_LIMIT -> vals <> [] ->
  reachable E gt vals (ac_node a) -> NoDup (cf_own C) ->
  key_life E C X (lenN vals) K0 a l a' K ->
  (forall t, t ∈ l -> slot_fits (tl_slot t)) ->
  NoDup (map (fun x => (call_kind x.1, call_validator x.1, as_u32 (call_slot x.1))) (all_calls l)).
Proof. exact (fun H1 H2 H3 Hr Ho Hl Hf => once_pf E C gt vals H1 H2 H3 X K0 a l a' K Hr Ho Hl Hf). Qed.
Print Assumptions C72_once.

(** Full statement: every request for a slot a key can sign is answered with that key's
    signature.  Proved when no tick is handled in a slot before the window the key is
    loaded with.  Requests for later slots are refused. *)
Theorem C72_signs_partial E C gt vals X K0 a l a' K c r :
  good_hash (e_header E) -> lenN vals <= VALIDATOR_REGISTRY_LIMIT -> vals <> [] ->
  reachable E gt vals (ac_node a) -> keys_ok K0 ->
  key_life E C X (lenN vals) K0 a l a' K ->
  (forall t, t ∈ l -> slot_fits (tl_slot t) /\ not_early K0 (tl_slot t)) ->
  (c, r) ∈ all_calls l -> r = answer X E K0 c.
Proof. exact (fun H1 H2 H3 Hr Hk Hl Hf Hx => signs_pf E C gt vals H1 H2 H3 X K0 a l a' K (c, r) Hr Hk Hl Hf Hx). Qed.
Print Assumptions C72_signs_partial.

(** Then every own validator's vote of the slot is published, signed with its vote key, as
    long as that key lasts, and nothing else is. *)
Theorem C72_votes_partial E C gt vals X K0 a l a1 K W a2 fx :
  good_hash (e_header E) -> lenN vals <= VALIDATOR_REGISTRY_LIMIT -> vals <> [] ->
  reachable E gt vals (ac_node a) -> keys_ok K0 ->
  key_life E C X (lenN vals) K0 a l a1 K ->
  (forall t, t ∈ l -> slot_fits (tl_slot t) /\ not_early K0 (tl_slot t)) ->
  world_ok W -> signs_with E X K W -> actor_step E C W a1 m_tick = Ok (a2, fx) ->
  let i := wall_interval W a1 in
  db_time (nd_db (ac_node a1)) < i -> i mod 5 = 1 -> cf_gate C = false \/ ac_syncing a2 = false ->
  slot_fits (i / 5) -> not_early K0 (i / 5) ->
  exists data, produce_attestation_data (nd_db (ac_node a2)) (i / 5) = Ok data /\
    forall sa, sa ∈ votes_out fx <->
      sa_validator sa ∈ cf_own C /\ sa_data sa = data /\
      exists p, K0 !! sa_validator sa = Some p /\ i / 5 < key_until (kp_att p) /\
        X (k_id (kp_att p)) (i / 5) (e_data E data) = Some (sa_sig sa).
Proof. exact (fun H1 H2 H3 => votes_in_pf E C gt vals H1 H2 H3 X K0 a l a1 K W a2 fx). Qed.
Print Assumptions C72_votes_partial.

(** Validator 0's vote key moves on by one tree at slot 131072 and ends at slot 196608. *)
Example C72_life_nonvacuous :
  key_life ze kc kx (lenN x_vals) kk za0 (kl_log kk kk_t) (kl_end kk kk_t) (kl_keys kk kk_t) /\
  reachable ze 1000 x_vals (ac_node za0) /\ NoDup (cf_own kc) /\ keys_ok kk /\
  (forall t, t ∈ kl_log kk kk_t -> slot_fits (tl_slot t) /\ not_early kk (tl_slot t)) /\
  map show_call (all_calls (kl_log kk kk_t)) =
    [(true, 0, 1, Some 10000001); (true, 1, 1, Some 12000001);
     (false, 0, 3, Some 11000003);
     (true, 0, 3, Some 10000003); (true, 1, 3, Some 12000003);
     (true, 0, 131072, Some 10131072); (true, 1, 131072, Some 12131072);
     (true, 0, 196608, None); (true, 1, 196608, Some 12196608);
     (false, 1, 196609, Some 13196609)].
Proof.
  split; [exact kk_life|]. split; [exact z_reach0|]. split; [apply (bool_decide_unpack _); vm_compute; exact I|].
  split; [exact kk_ok|]. split; [|vm_compute; reflexivity].
  intros t Ht. split; [|apply kk_early]. revert t Ht. apply fits_all. vm_compute. reflexivity.
Qed.

(** At slot 196608 validator 0's vote key is used up and validator 1 votes alone. *)
Definition kk_a : Actor := kl_end kk (take 6 kk_t).
Definition kk_W : World := kw (kl_keys kk (take 6 kk_t)) (x_at 196608 1).
Example C72_votes_nonvacuous :
  key_life ze kc kx (lenN x_vals) kk za0 (kl_log kk (take 6 kk_t)) kk_a (kl_keys kk (take 6 kk_t)) /\
  world_ok kk_W /\ signs_with ze kx (kl_keys kk (take 6 kk_t)) kk_W /\
  db_time (nd_db (ac_node kk_a)) < wall_interval kk_W kk_a /\ wall_interval kk_W kk_a mod 5 = 1 /\
  match actor_step ze kc kk_W kk_a m_tick with
  | Ok (_, fx) => map (fun sa => (sa_validator sa, ad_slot (sa_data sa), sa_sig sa)) (votes_out fx)
  | _ => []
  end = [(1, 196608, 12196608)].
Proof.
  split; [apply kl_ok; vm_compute; reflexivity|]. split; [apply kw_ok|]. split; [apply kw_signs|].
  split; [vm_compute; reflexivity|]. split; vm_compute; reflexivity.
Qed.

(** After a handled tick every key that lasts beyond the slot of the tick is prepared for the
    next slot: signing then does not wait for the key. *)
Theorem C72_prepared_partial E C gt vals X K0 a l a1 K W a2 fx d built root :
  good_hash (e_header E) -> lenN vals <= VALIDATOR_REGISTRY_LIMIT -> vals <> [] ->
  reachable E gt vals (ac_node a) -> keys_ok K0 ->
  key_life E C X (lenN vals) K0 a l a1 K ->
  (forall t, t ∈ l -> slot_fits (tl_slot t) /\ not_early K0 (tl_slot t)) ->
  tick_handled W a1 = true -> actor_step E C W a1 m_tick = Ok (a2, fx) ->
  let i := wall_interval W a1 in
  slot_fits (i / 5) -> not_early K0 (i / 5) ->
  (i mod 5 = 1 -> produce_attestation_data (nd_db (ac_node a2)) (i / 5) = Ok d) ->
  forall v p k,
    (tick_keys X (e_data E) K i (tick_calls C (lenN vals) a2 i d built root)).1 !! v = Some p ->
    k = kp_att p \/ k = kp_prop p -> i / 5 + 1 < key_until k ->
    key_from k <= i / 5 + 1 < key_from k + 131072.
Proof. exact (fun H1 H2 H3 => prepared_pf E C gt vals H1 H2 H3 X K0 a l a1 K W a2 fx d built root). Qed.
Print Assumptions C72_prepared_partial.

(** After the tick of slot 131072 - 1 both keys of validator 1 have moved on to be prepared
    for slot 131072. *)
Example C72_prepared_nonvacuous :
  let ts := [Some (x_at 1 1); Some (x_at 131071 1)] in
  is_ok (kl_run kk za0 kk [] ts) = true /\ length (kl_log kk ts) = 2%nat /\
  ((fun p => (kp_att p, kp_prop p)) <$> kl_keys kk ts !! 1) = Some (mkKey 12 1 4, mkKey 13 1 4) /\
  ((fun p => (kp_att p, kp_prop p)) <$> kk !! 1) = Some (mkKey 12 0 4, mkKey 13 0 4).
Proof. vm_compute. done. Qed.

(** Slots from 2^32 on are cut to 32 bits: then a key is asked again for an epoch it has
    signed, for votes and for blocks. *)
Theorem C72_wraps_refuted :
  exists E C gt vals X K0 a l a' K,
    good_hash (e_header E) /\ reachable E gt vals (ac_node a) /\ keys_ok K0 /\
    key_life E C X (lenN vals) K0 a l a' K /\
    forall kind, exists c c' id epoch sig sig',
      call_kind c = kind /\ call_kind c' = kind /\ call_slot c < call_slot c' /\
      X id epoch (call_message E c) = Some sig /\ X id epoch (call_message E c') = Some sig' /\
      (c, Some sig) ∈ all_calls l /\ (c', Some sig') ∈ all_calls l.
Proof. exact wraps_pf. Qed.
Print Assumptions C72_wraps_refuted.

(** A tick handled before the slots of a key sends its window to the end of the activation
    interval.  The key then refuses slots it could sign, until the node is restarted. *)
Theorem C72_refuted :
  exists E C gt vals X K0 a l a' K c p,
    good_hash (e_header E) /\ reachable E gt vals (ac_node a) /\ keys_ok K0 /\
    key_life E C X (lenN vals) K0 a l a' K /\ (forall t, t ∈ l -> slot_fits (tl_slot t)) /\
    (forall id epoch msg, is_Some (X id epoch msg)) /\
    K0 !! call_validator c = Some p /\ key_from (call_key c p) <= call_slot c < key_until (call_key c p) /\
    (c, None) ∈ all_calls l.
Proof. exact refuted_pf. Qed.
Print Assumptions C72_refuted.
