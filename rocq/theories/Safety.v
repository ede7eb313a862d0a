(** Specification vocabulary for accountable safety: votes included in blocks,
    conflicting votes, and thirds of the validator set. *)
From Verif Require Export STFSpec.

(** Validator [v] takes part in an attestation with data [d] that some block of
    [bs] includes. *)
Definition cast (bs : list Block) (v : N) (d : AttestationData) : Prop :=
  exists b a, b ∈ bs /\ a ∈ b_atts b /\ votes_in v a /\ at_data a = d.

(** Two different votes for the same target slot. *)
Definition double_vote (d d' : AttestationData) : Prop :=
  cp_slot (ad_target d) = cp_slot (ad_target d') /\
  (ad_target d <> ad_target d' \/ ad_source d <> ad_source d').

(** [d] surrounds [d']: it starts before and ends after it. *)
Definition surrounds (d d' : AttestationData) : Prop :=
  cp_slot (ad_source d) < cp_slot (ad_source d') /\
  cp_slot (ad_target d') < cp_slot (ad_target d).

(** The blocks prove that [v] voted against the rules. *)
Definition slashable (bs : list Block) (v : N) : Prop :=
  exists d d', cast bs v d /\ cast bs v d' /\ (double_vote d d' \/ surrounds d d').

(** At least one third of the [n] validators satisfy [P]. *)
Definition one_third (n : N) (P : N -> Prop) : Prop :=
  exists vs : list N, NoDup vs /\ (forall v, v ∈ vs -> v < n /\ P v) /\ n <= 3 * lenN vs.

(** [c] is a block of the chain of [s] after genesis, not older than the
    finalized block, and its slot is justified. *)
Definition justified_checkpoint (s : State) (c : Checkpoint) : Prop :=
  0 < cp_slot c /\ cp_slot (s_finalized s) <= cp_slot c /\
  on_chain s c /\ slot_justified s (cp_slot c).
