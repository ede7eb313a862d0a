(** Vocabulary for the duties of the own validators and the blocks asked from peers. *)
From Verif Require Export ActorSpec.

(** The votes and blocks of own validators sent out, in order. *)
Definition votes_out (fx : list Effect) : list SignedAtt :=
  omap (fun x => match x with fx_publish_att sa => Some sa | _ => None end) fx.
Definition blocks_out (fx : list Effect) : list SignedBlock :=
  omap (fun x => match x with fx_publish_block sb => Some sb | _ => None end) fx.
(** The blocks asked from peers. *)
Definition fetched (fx : list Effect) : list H256 :=
  omap (fun x => match x with fx_fetch r => Some r | _ => None end) fx.

(** The node's life: messages handled, with restarts from its own database in
    between at any time. *)
Inductive lifetime (E : Env) (C : Config) (a : Actor) : list (Actor * World * message * list Effect) -> Actor -> Prop :=
| lt_nil : lifetime E C a [] a
| lt_step l a1 W m a2 fx :
    lifetime E C a l a1 -> world_ok W -> actor_step E C W a1 m = Ok (a2, fx) ->
    lifetime E C a (l ++ [(a1, W, m, fx)]) a2
| lt_restart l a1 :
    lifetime E C a l a1 -> lifetime E C a l (start_actor (start_node (nd_db (ac_node a1)))).
Definition sent (l : list (Actor * World * message * list Effect)) : list Effect := concat (map snd l).

(** Block building gives blocks of the slot asked for (see C37_shape). *)
Definition builds_slot (W : World) : Prop :=
  forall n slot v sb, w_build W n slot v = Some sb -> b_slot (sb_block sb) = slot.

(** The same world with another vote signer or block builder. *)
Definition set_sign (W : World) (f : N -> AttestationData -> option N) : World :=
  mkWorld (w_now W) (w_after W) (w_aggregator W) (w_iter W) f (w_build W) (w_reagg W) (w_jobs W).
Definition set_build (W : World) (f : Node -> N -> N -> option SignedBlock) : World :=
  mkWorld (w_now W) (w_after W) (w_aggregator W) (w_iter W) (w_sign W) f (w_reagg W) (w_jobs W).

(** Handling the message asks validator keys to sign a vote of slot [s]: it depends on
    what the signer answers for that slot. *)
Definition asks_vote (E : Env) (C : Config) (s : N) (x : Actor * World * message * list Effect) : Prop :=
  let '(a, W, m, _) := x in
  exists f, (forall v d, ad_slot d <> s -> f v d = w_sign W v d) /\
    actor_step E C (set_sign W f) a m <> actor_step E C W a m.
(** ... asks for a signed block of slot [s]. *)
Definition asks_block (E : Env) (C : Config) (s : N) (x : Actor * World * message * list Effect) : Prop :=
  let '(a, W, m, _) := x in
  exists f, (forall n slot v, slot <> s -> f n slot v = w_build W n slot v) /\
    actor_step E C (set_build W f) a m <> actor_step E C W a m.

(** The interval of the wall clock. *)
Definition wall_interval (W : World) (a : Actor) : N := (w_now W - db_gt (nd_db (ac_node a)) * 1000) / 800.
