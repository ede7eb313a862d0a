(** Aggregation of votes (C38, C39) and recovery of votes from blocks (C53). *)
From Verif Require Import AggExamples.
Local Open Scope N_scope.

(** ** C38 the choice of children of an aggregation job *)

(** Starting from the validators with a signature of their own ([seed]), pending
    aggregates first, then accepted ones: each chosen one adds a validator and none
    of its list would have added more; at most two; accepted ones only once the
    pending add nothing; fewer than two only when nothing adds anything. *)
Theorem C38_children new known (seed : gset N) :
  exists sn sk cov, select_proofs_greedily new known seed = Ok (sn ++ sk, cov) /\
    greedy_from_list (fun v => v ∈ seed) [] new sn /\ greedy_from_list (fun v => v ∈ seed) sn known sk /\
    (length (sn ++ sk) <= 2)%nat /\
    (sk <> [] -> exhausted (fun v => v ∈ seed) sn new) /\
    ((length (sn ++ sk) < 2)%nat -> exhausted (fun v => v ∈ seed) (sn ++ sk) (new ++ known)) /\
    (forall v, v ∈ cov <-> v ∈ seed \/ covered_by (sn ++ sk) v).
Proof. exact (C38_children_pf new known seed). Qed.
Print Assumptions C38_children.

Example C38_children_nonvacuous :
  (match select_proofs_greedily xj_new xj_known {[0]} with Ok x => Some x.1 | _ => None end) =
    Some [mkProof [false; true; true] 1; mkProof [false; false; true; true] 3].
Proof. vm_compute. reflexivity. Qed.

(** ** C39 aggregation jobs *)

(** One job: signers and children as in [good_job]. *)
Theorem C39_job E iter_raw vals d sigs new known j :
  (forall l, iter_raw l ≡ₚ l) ->
  resolve_job E iter_raw vals d sigs new known = Ok (Some j) -> good_job E vals d sigs (new ++ known) j.
Proof. exact (fun H => C39_job_pf E iter_raw H vals d sigs new known j). Qed.
Print Assumptions C39_job.

(** Its result: the participants are exactly the signers and the children's
    participants, ascending. *)
Theorem C39_output E P2 j d p ps del :
  aggregate_job E P2 j = Ok (Some (d, p, ps, del)) ->
  d = jb_data j /\ del = jb_delete j /\ StronglySorted N.lt ps /\
  (forall v, v ∈ ps <-> v ∈ jb_raw_ids j \/ v ∈ jb_child_ids j) /\
  (forall v, takes_part v p <-> v ∈ ps) /\
  ad_slot d < two32 /\
  pv_mixed P2 (jb_children j) (jb_raw_keys j) (jb_raw_sigs j) (e_data E d) (ad_slot d) = Some (pr_bytes p).
Proof. exact (C39_output_pf E P2 j d p ps del). Qed.
Print Assumptions C39_output.

(** The jobs of a session of any reachable node: preparing them never panics, they
    are at most as many as asked for, for distinct data, each good and made of
    what the pools hold. *)
Theorem C39_snapshot E gt vals iter_raw n groups keys cur k :
  good_hash (e_header E) -> lenN vals <= VALIDATOR_REGISTRY_LIMIT -> (forall l, iter_raw l ≡ₚ l) ->
  reachable E gt vals n -> in_some_order n groups keys ->
  exists js, snapshot_aggregation_inputs E iter_raw n groups keys cur k = Ok js /\
    (length js <= k)%nat /\ NoDup (map jb_data js) /\
    forall j, j ∈ js -> exists sigs proofs, good_job E vals (jb_data j) sigs proofs j /\
      (forall p, p ∈ proofs -> stored_proof E n (jb_data j) p) /\
      ((forall v s, (v, s) ∈ sigs <-> sig_of (nd_gossip n) (e_data E (jb_data j)) v = Some s) \/ sigs = []).
Proof. exact (C39_snapshot_pf E gt vals iter_raw n groups keys cur k). Qed.
Print Assumptions C39_snapshot.

(** Whatever happens, all aggregates and signatures a node holds verify: those from
    the network and those it made itself, from signatures and from blocks. *)
Theorem C39_own E P P2 gt vals n :
  good_hash (e_header E) -> lenN vals <= VALIDATOR_REGISTRY_LIMIT -> inj_data E -> sound_prover E P P2 ->
  own_reachable E P P2 gt vals n ->
  (forall d p, stored_proof E n d p -> sound_proof E vals d p) /\
  (forall d v s, sig_of (nd_gossip n) (e_data E d) v = Some s ->
     exists k, has_key E vals v k /\ e_sig_valid E k (ad_slot d) (e_data E d) s = true).
Proof. exact (C39_own_pf E P P2 gt vals n). Qed.
Print Assumptions C39_own.

(** Such nodes meet the assumption of [C37_importable]: what they propose is
    imported. *)
Theorem C37_own E P P2 iter gt vals n n1 h sl slot vid v pool pc :
  (forall d, an_order (iter d)) ->
  good_hash (e_header E) -> lenN vals <= VALIDATOR_REGISTRY_LIMIT -> inj_data E ->
  complete_prover E P -> sound_prover E P P2 -> own_reachable E P P2 gt vals n ->
  get_proposal_head E n slot = Ok (n1, h) -> has_slot (tab n1) h sl -> sl < slot -> slot <= HISTORICAL_ROOTS_LIMIT ->
  is_proposer vid slot (lenN vals) = true -> vals !! N.to_nat vid = Some v -> can_sign E P vid (v_prop_key v) ->
  pool ≡ₚ map_to_list (bf_data (nd_known n1)) ->
  exists b proofs cps sb, produce_block E P iter n1 slot vid pool pc = Ok (b, proofs, cps) /\
    assemble E P vals slot vid b proofs = Some sb /\ sb_block sb = b /\
    b_slot b = slot /\ b_proposer b = vid /\ b_parent b = h /\
    forall n2, reachable E gt vals n2 -> read_state (tab n2) h = read_state (tab n1) h ->
      slot <= db_time (nd_db n2) / 5 + 1 ->
      exists n3, on_block E n2 sb = Ok n3 /\
        has_state (tab n3) (block_root (e_header E) (e_body E) b) = true.
Proof.
  exact (fun H1 H2 H3 H4 H5 H6 H7 => C37_importable_pf E P iter H1 gt vals H2 H3 H4 n n1 h sl slot vid v pool pc H5
    (proj1 (own_run E P P2 gt vals H2 H3 H4 H6 n H7))).
Qed.
Print Assumptions C37_own.

Example C39_nonvacuous :
  (* a signature of validator 0, two children out of three aggregates *)
  xj [(0, xa_key 0)] xj_new xj_known = Some ([([xa_key 1; xa_key 2], 1); ([xa_key 2; xa_key 3], 3)], [1; 2; 2; 3], [0]) /\
  (* nothing to combine: no job *)
  (xj [(0, xa_key 0)] [] [] = None /\ xj [] xj_new [] <> None /\ xj [] [mkProof [true] 1] [] = None) /\
  (* a session of a reachable node and its result *)
  in_some_order xa_n1 xa_groups [] /\
  map (fun j => (jb_raw_ids j, length (jb_children j), ad_slot (jb_data j))) xa_jobs = [([0; 1], 0%nat, 1)] /\
  match xa_result with Some (_, p, ps, _) => (pr_bits p, ps) | None => ([], []) end = ([true; true], [0; 1]).
Proof. exact (conj xj_one (conj xj_few (conj xa_order (conj xa_job_shape xa_result_shape)))). Qed.

Example C37_own_nonvacuous :
  good_hash (e_header xa) /\ lenN xp_vals <= VALIDATOR_REGISTRY_LIMIT /\ inj_data xa /\
  complete_prover xa xav /\ sound_prover xa xav xav2 /\ own_reachable xa xav xav2 1000 xp_vals xa_n4 /\
  (exists h, get_proposal_head xa xa_n4 3 = Ok (xa_n5, h) /\ has_slot (tab xa_n5) h 2) /\
  can_sign xa xav 3 (v_prop_key (nth 3 xp_vals (mkVal 0 0 0))) /\
  (* the proposal packs what was aggregated and recovered *)
  xa_built = Some [[true; true; true]].
Proof.
  exact (conj xa_good (conj xp_vals_few (conj xa_inj (conj xav_complete (conj xav_sound (conj xa_own4
    (conj xa_prepare (conj xa_can_sign xa_built_shape)))))))).
Qed.

(** ** C53 recovery of votes from an imported block *)

(** The choice: at most four attestations with targets above the justified slot that
    add validators, most first; none left out would have added more. *)
Theorem C53_choice E n atts :
  best_four E n atts (map (fun c => (ca_idx c, ca_new c)) (select_candidates E n atts)) /\
  forall c, c ∈ select_candidates E n atts -> atts !! ca_idx c = Some (ca_att c).
Proof. exact (C53_choice_thm E n atts). Qed.
Print Assumptions C53_choice.

(** On a reachable node and for any block, recovery does not panic, and each result
    is about a chosen attestation and has the participants of the block and those
    the node had already, no others. *)
Theorem C53_recovered E P P2 gt vals n sb :
  good_hash (e_header E) -> lenN vals <= VALIDATOR_REGISTRY_LIMIT -> reachable E gt vals n ->
  exists l, reaggregate_from_block E P P2 n sb = Ok l /\
    recovered E n (b_atts (sb_block sb)) (map (fun c => (ca_idx c, ca_new c)) (select_candidates E n (b_atts (sb_block sb)))) l.
Proof. exact (C53_recovered_pf E P P2 gt vals n sb). Qed.
Print Assumptions C53_recovered.

(** After the import of a new block whose parent state is still stored, if the
    provers do not fail, every chosen attestation is recovered. *)
Theorem C53_all E P P2 gt vals n0 n sb s :
  good_hash (e_header E) -> lenN vals <= VALIDATOR_REGISTRY_LIMIT -> inj_data E -> never_fails P P2 ->
  reachable_sound E gt vals n0 ->
  has_state (tab n0) (block_root (e_header E) (e_body E) (sb_block sb)) = false -> on_block E n0 sb = Ok n ->
  read_state (tab n) (b_parent (sb_block sb)) = Ok (Some s) ->
  exists l, reaggregate_from_block E P P2 n sb = Ok l /\
    map fst l = map (fun c => at_data (ca_att c)) (select_candidates E n (b_atts (sb_block sb))).
Proof. exact (C53_all_pf E P P2 gt vals n0 n sb s). Qed.
Print Assumptions C53_all.

Example C53_nonvacuous :
  map (fun c => (ca_idx c, ca_new c)) (select_candidates xa xa_n0 xc_atts) = [(4%nat, 3); (1%nat, 2); (0%nat, 1); (3%nat, 1)] /\
  reachable_sound xa 1000 xp_vals xa_n2 /\ never_fails xav xav3 /\
  has_state (tab xa_n2) (block_root (e_header xa) (e_body xa) (sb_block (xa_sb xa_b2))) = false /\
  on_block xa xa_n2 (xa_sb xa_b2) = Ok xa_n3 /\
  (exists s, read_state (tab xa_n3) (b_parent (sb_block (xa_sb xa_b2))) = Ok (Some s)) /\
  map (fun c => (ca_idx c, ca_new c)) (select_candidates xa xa_n3 (b_atts xa_b2.1)) = [(0%nat, 1)] /\
  map (fun x => (ad_slot x.1, pr_bits x.2)) xa_recovered = [(1, [true; true; true])].
Proof.
  exact (conj xc_choice (conj (proj1 (own_run xa xav xav2 1000 xp_vals xa_good xp_vals_few xa_inj xav_sound xa_n2 xa_own2))
    (conj xav_never (conj xa_fresh (conj xa_import (conj xa_parent (conj xa_choice_shape xa_recovered_shape))))))).
Qed.
