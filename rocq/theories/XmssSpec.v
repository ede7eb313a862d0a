(** The node's life together with its keys. *)
From Verif Require Export Xmss DutySpec.
Local Open Scope N_scope.

(** A handled tick: the interval of the wall clock and what was asked of the keys. *)
Record TickLog := mkTick { tl_interval : N; tl_calls : list (Call * option N) }.
Definition tl_slot (t : TickLog) : N := tl_interval t / 5.

Definition all_calls (l : list TickLog) : list (Call * option N) := concat (map tl_calls l).

(** The tick is not skipped as already handled. *)
Definition tick_handled (W : World) (a : Actor) : bool :=
  (db_time (nd_db (ac_node a)) =? 0) || (db_time (nd_db (ac_node a)) <? wall_interval W a).

(** The node's signer is its key manager, and a block is built only if the proposal key
    signs it. *)
Definition signs_with (E : Env) (X : N -> N -> H256 -> option N) (K : KeyManager) (W : World) : Prop :=
  (forall v d, w_sign W v d = (sign_attestation X (e_data E) K v d).2) /\
  (forall n slot v sb, w_build W n slot v = Some sb ->
     is_Some (sign_block_root X K v (as_u32 slot) (block_root (e_header E) (e_body E) (sb_block sb))).2).

Section Life.
  Context (E : Env) (C : Config) (X : N -> N -> H256 -> option N) (nv : N) (K0 : KeyManager).

  (** Messages handled, with restarts at any time; a restart loads the keys again. *)
  Inductive key_life (a : Actor) : list TickLog -> Actor -> KeyManager -> Prop :=
  | kl_start : key_life a [] a K0
  | kl_other l a1 K W m a2 fx :
      key_life a l a1 K -> world_ok W ->
      m <> m_tick \/ tick_handled W a1 = false ->
      actor_step E C W a1 m = Ok (a2, fx) ->
      key_life a l a2 K
  | kl_tick l a1 K W a2 fx d built root :
      key_life a l a1 K -> world_ok W -> signs_with E X K W ->
      tick_handled W a1 = true ->
      actor_step E C W a1 m_tick = Ok (a2, fx) ->
      let i := wall_interval W a1 in
      (i mod 5 = 1 -> produce_attestation_data (nd_db (ac_node a2)) (i / 5) = Ok d) ->
      let x := tick_keys X (e_data E) K i (tick_calls C nv a2 i d built root) in
      key_life a (l ++ [mkTick i x.2]) a2 x.1
  | kl_restart l a1 K :
      key_life a l a1 K -> key_life a l (start_actor (start_node (nd_db (ac_node a1)))) K0.
End Life.

(** Who is asked, with which of the two keys, for which slot and which message. *)
Definition call_validator (c : Call) : N := match c with c_vote v _ => v | c_block v _ _ => v end.
Definition call_key (c : Call) (p : KeyPair) : Key := match c with c_vote _ _ => kp_att p | c_block _ _ _ => kp_prop p end.
Definition call_kind (c : Call) : bool := match c with c_vote _ _ => true | c_block _ _ _ => false end.
Definition call_slot (c : Call) : N := match c with c_vote _ d => ad_slot d | c_block _ s _ => s end.
Definition call_message (E : Env) (c : Call) : H256 := match c with c_vote _ d => e_data E d | c_block _ _ r => r end.

(** The slots a key can sign: from where its window starts when it is loaded to the end
    of its activation interval. *)
Definition key_from (k : Key) : N := k_first k * 65536.
Definition key_until (k : Key) : N := k_end k * 65536.
(** Keys hold at least two bottom trees. *)
Definition key_ok (k : Key) : Prop := k_first k + 2 <= k_end k.
Definition keys_ok (K : KeyManager) : Prop := forall v p, K !! v = Some p -> key_ok (kp_att p) /\ key_ok (kp_prop p).

(** Every tick so far fell into a slot not before the start of the loaded windows, ... *)
Definition not_early (K0 : KeyManager) (slot : N) : Prop :=
  forall v p, K0 !! v = Some p -> key_from (kp_att p) <= slot /\ key_from (kp_prop p) <= slot.
(** ... and slot numbers fit the 32 bits the signature scheme uses. *)
Definition slot_fits (slot : N) : Prop := slot + 1 < 2 ^ 32.

(** The answer to a request: the signature of the validator's key of that kind for the
    slot over the message, up to the end of the key's activation interval. *)
Definition answer (X : N -> N -> H256 -> option N) (E : Env) (K0 : KeyManager) (c : Call) : option N :=
  match K0 !! call_validator c with
  | None => None
  | Some p => if call_slot c <? key_until (call_key c p)
              then X (k_id (call_key c p)) (call_slot c) (call_message E c) else None
  end.
