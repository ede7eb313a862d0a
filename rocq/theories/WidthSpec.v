(** Vocabulary for 64-bit arithmetic: the numbers in a block are 64 bits wide, and it has
    fewer than 2^32 attestations (the SSZ limit is 4096). *)
From Verif Require Export Width STFSpec.
Local Open Scope N_scope.

Definition att_fits (a : AggAtt) : Prop := cp_slot (ad_target (at_data a)) < two64.
Definition atts_fit (l : list AggAtt) : Prop := lenN l < 2 ^ 32 /\ Forall att_fits l.
Definition block_fits (b : Block) : Prop := b_slot b < two64 /\ atts_fit (b_atts b).
