(** What the coverage gauges are to show. *)
From Verif Require Export Coverage NodeSpec.
Local Open Scope N_scope.

(** Exactly [k] numbers satisfy [P]. *)
Definition number (P : N -> Prop) (k : N) : Prop :=
  exists l, NoDup l /\ (forall v, v ∈ l <-> P v) /\ lenN l = k.
Definition has_bit (bits : Bits) (v : N) : Prop := bits !! N.to_nat v = Some true.

(** The validator [v] is in an aggregate for the slot [slot]: in the pool of aggregates
    not yet counted, among attestations, or in a snapshot of that pool. *)
Definition in_pool (n : Node) (slot v : N) : Prop :=
  exists k e p, bf_data (nd_new n) !! k = Some e /\ ad_slot (pe_data e) = slot /\ p ∈ pe_proofs e /\ has_bit (pr_bits p) v.
(** ... there is none at all *)
Definition no_proofs (n : Node) : Prop := forall k e, bf_data (nd_new n) !! k = Some e -> pe_proofs e = [].
Definition in_atts (l : list AggAtt) (slot v : N) : Prop :=
  exists a, a ∈ l /\ ad_slot (at_data a) = slot /\ has_bit (at_bits a) v.
Definition in_snapshot (snap : option (list (N * Bits))) (slot v : N) : Prop :=
  exists l bits, snap = Some l /\ (slot, bits) ∈ l /\ has_bit bits v.
(** ... of the head block, if its body is known *)
Definition in_head_block (E : Env) (n : Node) (slot v : N) : Prop :=
  exists b, get_block (e_body E) (tab n) (db_head (nd_db n)) = Some b /\ in_atts (b_atts b) slot v.

(** The gauges of one section say that of [vc] validators in [cc] subnets those in [P] are
    covered: how many, how many of each subnet, and how many subnets have one. *)
Definition section_shows (w : Writes) (sec : Section_) (vc cc : N) (P : N -> Prop) : Prop :=
  (exists k, shown w (GValidators sec None) = Some k /\ number (fun v => v < vc /\ P v) k) /\
  (forall i, i < cc -> exists k, shown w (GValidators sec (Some i)) = Some k /\
     number (fun v => v < vc /\ v mod cc = i /\ P v) k) /\
  (exists k, shown w (GSubnets sec) = Some k /\ number (fun i => exists v, v < vc /\ v mod cc = i /\ P v) k).
Definition of_section (sec : Section_) (g : Gauge) : Prop :=
  match g with GValidators s _ => s = sec | GSubnets s => s = sec | GDiff _ => False end.
