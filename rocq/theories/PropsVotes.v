(** A node's own votes never conflict with each other (C70). *)
From Verif Require Import NodeVotes.
Local Open Scope N_scope.

(** Partial: while the head stays on the chain of the earlier head, the source of
    the votes does not go back, so no later vote surrounds an earlier one. *)
Theorem C70_along_chain_partial E gt vals n0 es1 n1 es2 n2 slot1 slot2 a1 a2 :
  good_hash (e_header E) -> lenN vals <= VALIDATOR_REGISTRY_LIMIT ->
  started E (genesis (e_body E) gt vals) n0 -> node_run E n0 es1 n1 -> node_run E n1 es2 n2 ->
  ancestor (tab n2) (db_head (nd_db n1)) (db_head (nd_db n2)) ->
  produce_attestation_data (nd_db n1) slot1 = Ok a1 ->
  produce_attestation_data (nd_db n2) slot2 = Ok a2 ->
  cp_slot (ad_source a1) <= cp_slot (ad_source a2) /\ ~ surrounds a2 a1.
Proof. intros H1 H2. exact (C70_along_chain_pf E gt vals H1 H2 n0 es1 n1 es2 n2 slot1 slot2 a1 a2). Qed.
Print Assumptions C70_along_chain_partial.

Example C70_along_chain_nonvacuous :
  good_hash (e_header xe) /\ started xe x_gen x_n0 /\
  node_run xe x_n0 l_es1 l_n1 /\ node_run xe l_n1 l_es2 l_n2 /\
  ancestor (tab l_n2) (db_head (nd_db l_n1)) (db_head (nd_db l_n2)) /\
  produce_attestation_data (nd_db l_n1) 9 = Ok (the_vote l_n1 9) /\
  produce_attestation_data (nd_db l_n2) 10 = Ok (the_vote l_n2 10) /\
  cp_slot (ad_source (the_vote l_n1 9)) = 0 /\ cp_slot (ad_source (the_vote l_n2 10)) = 4.
Proof.
  destruct l_votes as (H1 & H2 & _ & _ & H3 & H4).
  exact (conj xe_good (conj x_started (conj l_run1 (conj l_run2 (conj l_ancestor
    (conj H1 (conj H2 (conj H3 H4)))))))).
Qed.

(** Missing, because false: after a switch to a fork, a node following its own rules
    produces a vote that surrounds its earlier one; it accepts both itself. *)
Theorem C70_refuted :
  exists E gt vals n0 es1 n1 es2 n2 slot1 slot2 a1 a2,
    good_hash (e_header E) /\ acyclic_hash (e_header E) /\
    lenN vals <= VALIDATOR_REGISTRY_LIMIT /\ started E (genesis (e_body E) gt vals) n0 /\
    node_run E n0 es1 n1 /\ node_run E n1 es2 n2 /\ slot1 < slot2 /\
    produce_attestation_data (nd_db n1) slot1 = Ok a1 /\
    produce_attestation_data (nd_db n2) slot2 = Ok a2 /\
    validate_attestation_data (nd_db n1) a1 = Ok tt /\
    validate_attestation_data (nd_db n2) a2 = Ok tt /\
    surrounds a2 a1.
Proof.
  destruct y_votes as (H1 & H2 & _ & _ & _ & _ & H3 & H4).
  exists xe, 1000, x_vals, x_n0, y_es1, y_n1, y_es2, y_n2, 5, 11, (the_vote y_n1 5), (the_vote y_n2 11).
  exact (conj xe_good (conj xe_acyclic (conj x_vals_few (conj x_started (conj y_run1 (conj y_run2
    (conj eq_refl (conj H1 (conj H2 (conj H3 (conj H4 y_surrounds))))))))))).
Qed.
Print Assumptions C70_refuted.

(** Nor, even without a switch: it votes for one target from two different sources. *)
Theorem C70_double_refuted :
  exists E gt vals n0 es1 n1 es2 n2 slot1 slot2 a1 a2,
    good_hash (e_header E) /\ acyclic_hash (e_header E) /\
    lenN vals <= VALIDATOR_REGISTRY_LIMIT /\ started E (genesis (e_body E) gt vals) n0 /\
    node_run E n0 es1 n1 /\ node_run E n1 es2 n2 /\ slot1 < slot2 /\
    ancestor (tab n2) (db_head (nd_db n1)) (db_head (nd_db n2)) /\
    produce_attestation_data (nd_db n1) slot1 = Ok a1 /\
    produce_attestation_data (nd_db n2) slot2 = Ok a2 /\
    ad_target a1 = ad_target a2 /\ double_vote a1 a2.
Proof.
  destruct l_votes as (H1 & H2 & H3 & _).
  exists xe, 1000, x_vals, x_n0, l_es1, l_n1, l_es2, l_n2, 9, 10, (the_vote l_n1 9), (the_vote l_n2 10).
  exact (conj xe_good (conj xe_acyclic (conj x_vals_few (conj x_started (conj l_run1 (conj l_run2
    (conj eq_refl (conj l_ancestor (conj H1 (conj H2 (conj H3 l_double))))))))))).
Qed.
Print Assumptions C70_double_refuted.
