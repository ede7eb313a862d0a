(** Specification vocabulary for fork choice. *)
From Verif Require Export ForkChoice.

(** Block [r] is in the tree and [a] is [r] or an ancestor of [r] reachable
    through blocks of the tree. *)
Inductive descends (m : BlockTree) : H256 -> H256 -> Prop :=
| desc_refl r e : m !! r = Some e -> descends m r r
| desc_step r s p a : m !! r = Some (s, p) -> descends m p a -> descends m r a.

(** Parents in the tree have smaller slots. *)
Definition slots_decrease (m : BlockTree) : Prop :=
  forall r s p s' p', m !! r = Some (s, p) -> m !! p = Some (s', p') -> s' < s.

(** The votes for [r]: validators whose vote's head is [r] or a descendant. *)
Definition votes_for_subtree (m : BlockTree) (votes : Votes) (r : H256) (v : N) : Prop :=
  exists d, votes !! v = Some d /\ descends m (cp_root (ad_head d)) r.

(** [n] is the number of elements satisfying [P]. *)
Definition counts (n : N) (P : N -> Prop) : Prop :=
  exists vs : list N, NoDup vs /\ (forall v, v ∈ vs <-> P v) /\ lenN vs = n.

(** [c] is a child of [h] that passes the threshold. *)
Definition eligible (m : BlockTree) (W : H256 -> N) (min_score : N) (h c : H256) : Prop :=
  (exists s, m !! c = Some (s, h)) /\ (min_score = 0 \/ min_score <= W c).

(** [a] is at most as good as [b]: smaller weight, or equal weight and smaller root. *)
Definition not_better (W : H256 -> N) (a b : H256) : Prop :=
  W a < W b \/ (W a = W b /\ a <= b).

(** Greedy descent from the first to the second block. *)
Inductive greedy (m : BlockTree) (W : H256 -> N) (min_score : N) : H256 -> H256 -> Prop :=
| greedy_leaf h : (forall c, ~ eligible m W min_score h c) -> greedy m W min_score h h
| greedy_step h c h' :
    eligible m W min_score h c ->
    (forall c', eligible m W min_score h c' -> not_better W c' c) ->
    greedy m W min_score c h' -> greedy m W min_score h h'.

(** At least two thirds of [n], counted as distinct validators. *)
Definition supported (n : N) (P : N -> Prop) : Prop :=
  exists vs : list N, NoDup vs /\ (forall v, v ∈ vs -> P v) /\ 2 * n <= 3 * lenN vs.

Section VoteSpec.
  Context (hash_data : AttestationData -> H256).

  (** [a] is older than or equal to [b] in the order (slot, data root). *)
  Definition vote_le (a b : AttestationData) : Prop :=
    ad_slot a < ad_slot b \/ (ad_slot a = ad_slot b /\ hash_data a <= hash_data b).

  (** Events that deliver or move votes. *)
  Inductive vote_event :=
  | ev_known (bits : Bits) (d : AttestationData)
  | ev_new (bits : Bits) (d : AttestationData)
  | ev_promote (order : VoteEntries).

  (** Runs of the vote store: on promotion the pending votes are drained in any
      order. *)
  Inductive vote_run : list vote_event -> FcVotes -> Prop :=
  | vr_init : vote_run [] (mkFc ∅ ∅)
  | vr_known evs f bits d :
      vote_run evs f -> vote_run (evs ++ [ev_known bits d]) (record_known hash_data f bits d)
  | vr_new evs f bits d :
      vote_run evs f -> vote_run (evs ++ [ev_new bits d]) (record_new hash_data f bits d)
  | vr_promote evs f order :
      vote_run evs f -> order ≡ₚ map_to_list (fc_new f) ->
      vote_run (evs ++ [ev_promote order]) (promote_with hash_data order f).

  (** [v] delivered [d] as active vote: in a block, or as a pending vote promoted since. *)
  Fixpoint delivered (pending : list (Bits * AttestationData)) (evs : list vote_event)
    : list (Bits * AttestationData) * list (Bits * AttestationData) :=
    match evs with
    | [] => ([], pending)
    | ev_known bits d :: rest =>
        let '(k, n) := delivered pending rest in ((bits, d) :: k, n)
    | ev_new bits d :: rest => delivered (pending ++ [(bits, d)]) rest
    | ev_promote _ :: rest =>
        let '(k, n) := delivered [] rest in (pending ++ k, n)
    end.
  (** All votes that count as known / pending after the events. *)
  Definition known_deliveries evs := (delivered [] evs).1.
  Definition new_deliveries evs := (delivered [] evs).2.

  (** [d] is the newest of the deliveries in which [v] participates. *)
  Definition newest (l : list (Bits * AttestationData)) (v : N) (d : AttestationData) : Prop :=
    (exists bits, (bits, d) ∈ l /\ bits !! N.to_nat v = Some true) /\
    (forall bits d', (bits, d') ∈ l -> bits !! N.to_nat v = Some true -> vote_le d' d).
End VoteSpec.
