(** Vocabulary: what the votes in a proposed block do (C62). *)
From Verif Require Export BuilderSpec FCSpec.

(** [a] carries all the votes the pool holds for its data. *)
Definition full_vote (pool : list (H256 * PayloadEntry)) (a : AggAtt) : Prop :=
  forall v, votes_in v a <-> exists p, pool_holds pool (at_data a) p /\ takes_part v p.

(** A voter of [a] whose vote for the target is not recorded in [s] yet. *)
Definition new_voter (s : State) (a : AggAtt) (v : N) : Prop :=
  votes_in v a /\ ~ tallied s (cp_root (ad_target (at_data a))) v.
(** Processing [a] in [s] records a vote. *)
Definition useful (s : State) (a : AggAtt) : Prop :=
  vote_counts s (at_data a) /\ exists v, new_voter s a v.

(** Votes of the first slots for the genesis block itself: they never count. *)
Definition self_vote (a : AggAtt) : Prop :=
  cp_slot (ad_source (at_data a)) = 0 /\ cp_slot (ad_target (at_data a)) = 0.

(** With [a] its target gets two thirds of the votes. *)
Definition reaches_quorum (s : State) (a : AggAtt) : Prop :=
  two_thirds (lenN (s_validators s)) (voters_after s a).

(** [(x, y, z)] comes before [(x', y', z')]: larger in the first difference. *)
Definition larger (x y z x' y' z' : N) : Prop :=
  x' < x \/ (x = x' /\ (y' < y \/ (y = y' /\ z' < z))).

(** The order of preference: a vote that finalizes, one that justifies, any other;
    among the first and second kind the later target, then the later vote, then the
    more new voters; among the third the more new voters, then the later target, then
    the later vote. *)
Inductive better (s : State) (a' a : AggAtt) : Prop :=
| bt_finalizes : reaches_quorum s a' -> finalizes s a' -> ~ (reaches_quorum s a /\ finalizes s a) -> better s a' a
| bt_justifies : reaches_quorum s a' -> ~ reaches_quorum s a -> better s a' a
| bt_later k' k : reaches_quorum s a' -> reaches_quorum s a -> (finalizes s a' <-> finalizes s a) ->
    counts k' (new_voter s a') -> counts k (new_voter s a) ->
    larger (cp_slot (ad_target (at_data a'))) (ad_slot (at_data a')) k'
           (cp_slot (ad_target (at_data a))) (ad_slot (at_data a)) k -> better s a' a
| bt_more k' k : ~ reaches_quorum s a' -> ~ reaches_quorum s a ->
    counts k' (new_voter s a') -> counts k (new_voter s a) ->
    larger k' (cp_slot (ad_target (at_data a'))) (ad_slot (at_data a'))
           k (cp_slot (ad_target (at_data a))) (ad_slot (at_data a)) -> better s a' a.

(** The node lists the block with root [r] in its fork choice. *)
Definition is_live (n : Node) (r : H256) : Prop :=
  exists slot, is_Some (t_live (tab n) !! (slot, r)).

(** The state while importing [b] on [s], once its first votes [pre] are processed. *)
Definition at_vote (E : Env) (s : State) (b : Block) (pre : list AggAtt) (mid : State) : Prop :=
  exists s1 s2, process_slots (e_state E) s (b_slot b) = Ok s1 /\
    process_block_header (e_header E) (e_body E) s1 b = Ok s2 /\
    process_attestations s2 pre = Ok mid.

(** A voter of the proof [q] for the data [d] whose vote for the target is neither
    recorded in [s] nor in one of the earlier votes [pre] of the block. *)
Definition fresh_voter (s : State) (pre : list AggAtt) (d : AttestationData) (q : Proof_) (v : N) : Prop :=
  takes_part v q /\ ~ tallied s (cp_root (ad_target d)) v /\
  forall a, a ∈ pre -> cp_root (ad_target (at_data a)) = cp_root (ad_target d) -> ~ votes_in v a.
