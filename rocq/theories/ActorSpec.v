(** Vocabulary for the actor properties. *)
From Verif Require Export Actor NodeSpec.

(** Hash sets are iterated in some order. *)
Definition world_ok (W : World) : Prop := forall s : gset H256, w_iter W s ≡ₚ elements s.

Section ActorSpec.
  Context (E : Env) (C : Config).

  (** A history: what happened outside, the message and what was sent out. *)
  Inductive actor_run (a : Actor) : list (World * message * list Effect) -> Actor -> Prop :=
  | ar_nil : actor_run a [] a
  | ar_snoc tr a1 W m a2 fx :
      actor_run a tr a1 -> world_ok W -> actor_step E C W a1 m = Ok (a2, fx) ->
      actor_run a (tr ++ [(W, m, fx)]) a2.

  (** Actors reached after some start or restart. *)
  Definition actor_reachable (gt : N) (vals : list Validator) (a : Actor) : Prop :=
    exists n0 tr, reachable E gt vals n0 /\ actor_run (start_actor n0) tr a.
End ActorSpec.

(** *** Sync status: successive observations (current slot, head slot, largest
    slot seen) *)
Definition sync_run (s : bool) (obs : list (N * N * N)) : bool :=
  fold_left (fun s o => sync_update s o.1.1 o.1.2 o.2) obs s.

(** *** Interval boundaries *)
Definition boundary (genesis t : N) : Prop := exists k, t = genesis + 800 * k.

(** *** Subnets: validators [v < n] whose subnet [v mod c] is in [subnets] *)
Definition assigned (n c : N) (subnets : list N) : list nat :=
  filter (fun v => N.of_nat v mod c ∈ subnets) (seq 0 (N.to_nat n)).

(** *** Pending blocks *)
(** Block [c] is stored and names [p] as its parent. *)
Definition parent_of (t : Tables) (c p : H256) : Prop :=
  exists h, t_headers t !! c = Some h /\ h_parent h = p.
(** [m] is an ancestor of [c], going up through stored blocks. *)
Inductive strict_anc (t : Tables) (m : H256) : H256 -> Prop :=
| sa_one c : parent_of t c m -> strict_anc t m c
| sa_more c p : parent_of t c p -> strict_anc t m p -> strict_anc t m c.

(** The two maps describe the same pending blocks: every waiting block is stored,
    waits for its own parent and has an ancestor noted as missing. *)
Record pending_ok (a : Actor) : Prop := {
  po_nonempty : forall p cs, ac_pend a !! p = Some cs -> cs <> ∅;
  po_parent : forall p cs c, ac_pend a !! p = Some cs -> c ∈ cs -> parent_of (tab (ac_node a)) c p;
  po_same : forall c, is_Some (ac_par a !! c) <-> exists p cs, ac_pend a !! p = Some cs /\ c ∈ cs;
  po_anc : forall c m, ac_par a !! c = Some m -> strict_anc (tab (ac_node a)) m c }.

(** [c] waits, directly or not, for [r]. *)
Inductive under (pend : gmap H256 (gset H256)) (r : H256) : H256 -> Prop :=
| un_one cs c : pend !! r = Some cs -> c ∈ cs -> under pend r c
| un_more x cs c : under pend r x -> pend !! x = Some cs -> c ∈ cs -> under pend r c.

(** [p], or a stored ancestor of it, is a block on a known state that cannot be
    read back. *)
Definition lost_above (E : Env) (t : Tables) (p : H256) : Prop :=
  exists r h, (r = p \/ strict_anc t r p) /\ t_headers t !! r = Some h /\
    has_state t (h_parent h) = true /\ get_signed_block (e_body E) t r = None.

(** *** Reading the effects of a history *)
Definition effects (tr : list (World * message * list Effect)) : list Effect := concat (map snd tr).
(** The blocks announced as imported, in order. *)
Definition imported (fx : list Effect) : list H256 :=
  omap (fun x => match x with fx_event (CeBlock _ r) => Some r | _ => None end) fx.
(** The aggregation sessions started, in order. *)
Definition sessions (fx : list Effect) : list N :=
  omap (fun x => match x with fx_session s _ => Some s | _ => None end) fx.
(** What a subscriber who knew checkpoint [c] believes after the events. *)
Definition heard_justified (c : Checkpoint) (fx : list Effect) : Checkpoint :=
  fold_left (fun c x => match x with fx_event (CeJustified s r _) => mkCp r s | _ => c end) fx c.
Definition heard_finalized (c : Checkpoint) (fx : list Effect) : Checkpoint :=
  fold_left (fun c x => match x with fx_event (CeFinalized s r _) => mkCp r s | _ => c end) fx c.
(** The wall clock never goes back. *)
Definition clock_forward (tr : list (World * message * list Effect)) : Prop :=
  forall i j x y, (i <= j)%nat -> tr !! i = Some x -> tr !! j = Some y -> w_now x.1.1 <= w_now y.1.1.
Definition published_vote_or_block (x : Effect) : Prop :=
  (exists sa, x = fx_publish_att sa) \/ (exists sb, x = fx_publish_block sb).

(** *** Delivery of a set of blocks *)
(** On parent state [p] the block passes every check of the node and leads to [s]. *)
Definition passes (E : Env) (p : State) (sb : SignedBlock) (s : State) : Prop :=
  let b := sb_block sb in
  b_slot b - s_slot p <= HISTORICAL_ROOTS_LIMIT /\ has_duplicate_data (b_atts b) = false /\
  lenN (b_atts b) <= MAX_ATTESTATIONS_DATA /\ verify_block_signatures E p sb = Ok tt /\
  exists post, state_transition (e_state E) (e_header E) (e_body E) p b = Ok post /\
    s = with_header post (set_state_root (s_header post) (b_state_root b)).
(** Valid blocks with their states: each builds on a state node [n] has or on
    another block of the set. *)
Definition valid_tree (E : Env) (n : Node) (bs : list SignedBlock) (post : H256 -> State) : Prop :=
  forall sb, sb ∈ bs -> exists p, passes E p sb (post (block_root (e_header E) (e_body E) (sb_block sb))) /\
    (read_state (tab n) (b_parent (sb_block sb)) = Ok (Some p) \/
     exists q, q ∈ bs /\ block_root (e_header E) (e_body E) (sb_block q) = b_parent (sb_block sb) /\
       p = post (b_parent (sb_block sb))).
(** Blocks sharing a root with one of the set are that one: nobody delivers a
    forged copy, and the node itself proposes none of them. *)
Definition genuine (E : Env) (bs : list SignedBlock) (tr : list (World * message * list Effect)) : Prop :=
  let root sb := block_root (e_header E) (e_body E) (sb_block sb) in
  forall W m fx sb, (W, m, fx) ∈ tr -> sb ∈ bs ->
    (forall x g, m = m_block x g -> root x = root sb -> x = sb) /\
    (forall n slot v x, w_build W n slot v = Some x -> root x <> root sb).
