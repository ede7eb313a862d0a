(** Vocabulary for liveness: who has to take part so that a block gets finalized. *)
From Verif Require Export STFSpec.

(** An attestation in which exactly the validators [V] take part. *)
Definition signed_by (V : list N) (a : AggAtt) : Prop := forall v, votes_in v a <-> v ∈ V.

(** [V] lists two thirds of [n] validators. *)
Definition quorum (n : N) (V : list N) : Prop :=
  NoDup V /\ (forall v, v ∈ V -> v < n) /\ 2 * n <= 3 * lenN V.

(** The blocks are proposed and their votes cast by validators of [V] only. *)
Definition only_by (V : list N) (bs : list Block) : Prop :=
  forall b, b ∈ bs -> b_proposer b ∈ V /\
    forall a v, a ∈ b_atts b -> votes_in v a -> v ∈ V.

(** A square number. *)
Definition square_number (d : N) : Prop := exists k, d = k * k.

(** Two neighbours among the justifiable distances. *)
Definition neighbours (d1 d2 : N) : Prop :=
  d1 < d2 /\ justifiable_distance d1 /\ justifiable_distance d2 /\
  forall d, d1 < d < d2 -> ~ justifiable_distance d.

(** Of sixteen validators, those whose index is a square modulo 16, and the others. *)
Definition missing : list N := [0; 1; 4; 9].
Definition present : list N := [2; 3; 5; 6; 7; 8; 10; 11; 12; 13; 14; 15].
