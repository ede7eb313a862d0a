(** The node: the property theorems C28-C36.  Statements use the operations of
    Node.v and the vocabulary of NodeSpec.v. *)
From Verif Require Import NodeExamples.

(** ** C28 the head has a state across crashes *)

(** Partial: crashes after every commit of an import except the one that writes
    the block without its state (commit 1), and anywhere else.  Then the head's
    state is readable, and every fork-choice update succeeds and selects a head
    whose state is readable. *)
Theorem C28_crash_safe_partial E gt vals a n0 (P : nat -> Prop) n :
  good_hash (e_header E) -> lenN vals <= VALIDATOR_REGISTRY_LIMIT ->
  valid_anchor E gt vals a -> started E a n0 -> (forall k, P k -> k <> 1%nat) -> crash_run E P n0 n ->
  (exists s, read_state (tab n) (db_head (nd_db n)) = Ok (Some s)) /\
  exists n', update_head n = Ok n' /\ exists s, read_state (tab n') (db_head (nd_db n')) = Ok (Some s).
Proof. intros H1 H2. exact (C28_crash_safe_pf E gt vals H1 H2 a n0 P n). Qed.
Print Assumptions C28_crash_safe_partial.

(** Missing: a crash between the commit of the block and that of its state.  The
    restarted node then selects the block as head although its state is not
    stored, and panics at the next safe-target update. *)
Theorem C28_refuted :
  exists E gt vals a n0 n ts, good_hash (e_header E) /\ acyclic_hash (e_header E) /\
    lenN vals <= VALIDATOR_REGISTRY_LIMIT /\ valid_anchor E gt vals a /\ started E a n0 /\
    crash_run E (fun _ => True) n0 n /\
    read_state (tab n) (db_head (nd_db n)) = Ok None /\ on_tick E n ts false = Panic.
Proof.
  exists xe, 1000, x_vals, x_gen, x_n0, x_c1, (x_at 2 3).
  exact (conj xe_good (conj xe_acyclic (conj x_vals_few (conj x_anchor (conj x_started
    (conj x_crash (conj x_c1_head x_c1_panic))))))).
Qed.
Print Assumptions C28_refuted.

(** After such a crash, delivery of the same block repairs the database: the import
    succeeds, head and block have a state, nothing stored before is lost. *)
Theorem C28_redelivery E gt vals n sb ds d :
  good_hash (e_header E) -> lenN vals <= VALIDATOR_REGISTRY_LIMIT ->
  reachable E gt vals n -> import_commits E n sb = Ok ds -> ds !! 1%nat = Some d ->
  exists n', on_block E (start_node d) sb = Ok n' /\
    (exists s, read_state (tab n') (db_head (nd_db n')) = Ok (Some s)) /\
    (exists s, read_state (tab n') (block_root (e_header E) (e_body E) (sb_block sb)) = Ok (Some s)) /\
    (forall r s, read_state (tab n) r = Ok (Some s) -> read_state (tab n') r = Ok (Some s)).
Proof. intros H1 H2. exact (C28_redelivery_pf E gt vals H1 H2 n sb ds d). Qed.
Print Assumptions C28_redelivery.

Example C28_nonvacuous :
  reachable xe 1000 x_vals x_c0 /\
  (exists ds, import_commits xe x_c0 (x_sb xb1) = Ok ds /\ ds !! 1%nat = Some x_disk) /\
  is_ok (on_block xe (start_node x_disk) (x_sb xb1)) = true /\
  crash_run xe (fun k => k <> 1%nat) x_n0 x_n1.
Proof.
  split_and!.
  - exists x_gen, x_n0, [ev_tick (x_at 1 1) false]. exact (conj x_anchor (conj x_started x_c0_run)).
  - exact x_disk_ok.
  - vm_compute. reflexivity.
  - apply (run_crash _ _ _ _ _ x_run1). constructor.
Qed.

(** ** C29 justified slot, head and live chain *)
Theorem C29_invariant E gt vals a n0 es1 n1 es2 n2 :
  good_hash (e_header E) -> lenN vals <= VALIDATOR_REGISTRY_LIMIT ->
  valid_anchor E gt vals a -> started E a n0 -> node_run E n0 es1 n1 -> node_run E n1 es2 n2 ->
  let d1 := nd_db n1 in let d2 := nd_db n2 in
  cp_slot (db_just d1) <= cp_slot (db_just d2) /\
  cp_slot (db_fin d1) <= cp_slot (db_just d2) /\
  db_time d1 <= db_time d2 /\
  (exists p, live_chain (db_tab d2) !! cp_root (db_just d2) = Some (cp_slot (db_just d2), p)) /\
  descends (live_chain (db_tab d2)) (db_head d2) (cp_root (db_just d2)) /\
  (exists s, read_state (db_tab d2) (db_head d2) = Ok (Some s)) /\
  slots_decrease (live_chain (db_tab d2)).
Proof. intros H1 H2. exact (C29_invariant_pf E gt vals H1 H2 a n0 es1 n1 es2 n2). Qed.
Print Assumptions C29_invariant.

(** No event makes a reachable node panic, while its clock fits the signature
    scheme's 32-bit slots. *)
Theorem C29_no_panic E gt vals n e :
  good_hash (e_header E) -> lenN vals <= VALIDATOR_REGISTRY_LIMIT ->
  acyclic_hash (e_header E) -> reachable E gt vals n -> clock_fits n -> node_step E n e <> Panic.
Proof. intros H1 H2. exact (C29_no_panic_pf E gt vals H1 H2 n e). Qed.
Print Assumptions C29_no_panic.

Example C29_nonvacuous :
  good_hash (e_header xe) /\ acyclic_hash (e_header xe) /\
  valid_anchor xe 1000 x_vals x_gen /\ started xe x_gen x_n0 /\
  node_run xe x_n0 x_es x_n1 /\ node_run xe x_n1 [ev_block (x_sb xy)] x_n2 /\
  (cp_slot (db_just (nd_db x_n0)), cp_slot (db_just (nd_db x_n1)), cp_slot (db_fin (nd_db x_n1))) = (0, 2, 1) /\
  size (live_chain (tab x_n2)) = 4%nat /\ clock_fits x_n2.
Proof.
  refine (conj xe_good (conj xe_acyclic (conj x_anchor (conj x_started (conj x_run1 (conj x_run2 _)))))).
  split_and!; vm_compute; reflexivity.
Qed.

(** ** C30 the finalized checkpoint *)

(** Partial: while the head stays on the chain of the earlier head, the finalized
    slot does not decrease. *)
Theorem C30_along_chain_partial E gt vals n0 es1 n1 es2 n2 :
  good_hash (e_header E) -> lenN vals <= VALIDATOR_REGISTRY_LIMIT ->
  started E (genesis (e_body E) gt vals) n0 -> node_run E n0 es1 n1 -> node_run E n1 es2 n2 ->
  ancestor (tab n2) (db_head (nd_db n1)) (db_head (nd_db n2)) ->
  cp_slot (db_fin (nd_db n1)) <= cp_slot (db_fin (nd_db n2)).
Proof. intros H1 H2. exact (C30_along_chain_pf E gt vals H1 H2 n0 es1 n1 es2 n2). Qed.
Print Assumptions C30_along_chain_partial.

(** Missing: a head switch to a fork whose state has an older finalized block, which
    the node adopts. *)
Theorem C30_refuted :
  exists E gt vals n0 es1 n1 es2 n2, good_hash (e_header E) /\ acyclic_hash (e_header E) /\
    lenN vals <= VALIDATOR_REGISTRY_LIMIT /\ started E (genesis (e_body E) gt vals) n0 /\
    node_run E n0 es1 n1 /\ node_run E n1 es2 n2 /\
    cp_slot (db_fin (nd_db n1)) = 1 /\ cp_slot (db_fin (nd_db n2)) = 0.
Proof.
  exists xe, 1000, x_vals, x_n0, x_es, x_n1, [ev_block (x_sb xy)], x_n2.
  exact (conj xe_good (conj xe_acyclic (conj x_vals_few (conj x_started (conj x_run1 (conj x_run2
    (conj x_fin1 x_fin2))))))).
Qed.
Print Assumptions C30_refuted.

Example C30_nonvacuous :
  started xe x_gen x_n0 /\ node_run xe x_n0 [] x_n0 /\ node_run xe x_n0 x_es x_n1 /\
  ancestor (tab x_n1) (db_head (nd_db x_n0)) (db_head (nd_db x_n1)) /\
  cp_slot (db_fin (nd_db x_n1)) = 1.
Proof.
  split_and!; [exact x_started|constructor|exact x_run1| |exact x_fin1].
  eapply (path_ancestor _ (db_head (nd_db x_n0)) _ (default [] (path_list 9 (tab x_n1) (db_head (nd_db x_n0)) (db_head (nd_db x_n1))))).
  - apply (path_list_sound 9). vm_compute. reflexivity.
  - apply (bool_decide_unpack _). vm_compute. exact I.
Qed.

(** ** C31 import is idempotent, and atomic on rejection *)
Theorem C31_known E n sb :
  has_state (tab n) (block_root (e_header E) (e_body E) (sb_block sb)) = true -> on_block E n sb = Ok n.
Proof. exact (C31_known_pf E n sb). Qed.
Print Assumptions C31_known.

(** A rejection happens in the checks, before anything is written. *)
Theorem C31_rejected E gt vals n sb :
  good_hash (e_header E) -> lenN vals <= VALIDATOR_REGISTRY_LIMIT ->
  reachable E gt vals n ->
  on_block E n sb <> Panic /\
  forall e, on_block E n sb = Err e ->
    check_block E (nd_db n) sb = Err e /\ import_commits E n sb = Err e.
Proof. intros H1 H2. exact (C31_rejected_pf E gt vals H1 H2 n sb). Qed.
Print Assumptions C31_rejected.

Theorem C31_accepted E gt vals n sb n' :
  good_hash (e_header E) -> lenN vals <= VALIDATOR_REGISTRY_LIMIT ->
  (forall l l', e_body E l = e_body E l' -> l = l') ->
  reachable E gt vals n ->
  let b := sb_block sb in let root := block_root (e_header E) (e_body E) b in
  has_state (tab n) root = false -> on_block E n sb = Ok n' ->
  exists parent post,
    read_state (tab n) (b_parent b) = Ok (Some parent) /\
    state_transition (e_state E) (e_header E) (e_body E) parent b = Ok post /\
    read_state (tab n') root = Ok (Some (stored_state post b)) /\
    get_signed_block (e_body E) (tab n') root = Some sb /\
    (cp_slot (db_fin (nd_db n')) <= b_slot b -> live_chain (tab n') !! root = Some (b_slot b, b_parent b)) /\
    nd_votes n' = record_block_votes E (nd_votes n) (b_atts b) /\
    (forall r s, read_state (tab n) r = Ok (Some s) -> read_state (tab n') r = Ok (Some s)) /\
    (forall r h, t_headers (tab n) !! r = Some h -> t_headers (tab n') !! r = Some h) /\
    exists ds, import_commits E n sb = Ok ds /\ last ds = Some (nd_db n').
Proof. intros H1 H2. exact (C31_accepted_pf E gt vals H1 H2 n sb n'). Qed.
Print Assumptions C31_accepted.

(** A new block's votes count at once: each validator's counted vote becomes the
    newest of its counted vote and its votes in the block, the pending votes stay,
    and the head is the fork choice over the live chain with the block added. *)
Theorem C19_imported E gt vals n sb n' :
  good_hash (e_header E) -> lenN vals <= VALIDATOR_REGISTRY_LIMIT ->
  reachable E gt vals n ->
  let b := sb_block sb in let root := block_root (e_header E) (e_body E) b in
  has_state (tab n) root = false -> on_block E n sb = Ok n' ->
  let voted v d := fc_known (nd_votes n) !! v = Some d \/
    exists a, a ∈ b_atts b /\ at_data a = d /\ at_bits a !! N.to_nat v = Some true in
  (forall v d, fc_known (nd_votes n') !! v = Some d ->
     voted v d /\ forall d', voted v d' -> vote_le (e_data E) d' d) /\
  (forall v d, voted v d -> is_Some (fc_known (nd_votes n') !! v)) /\
  fc_new (nd_votes n') = fc_new (nd_votes n) /\
  exists w, compute_lmd_ghost_head (cp_root (db_just (nd_db n')))
              (map_to_list (<[root := (b_slot b, b_parent b)]> (live_chain (tab n))))
              (map_to_list (fc_known (nd_votes n'))) 0 = Some (db_head (nd_db n'), w).
Proof. exact (C19_imported_pf E gt vals n sb n'). Qed.
Print Assumptions C19_imported.

Example C31_nonvacuous :
  good_hash (e_header xi) /\ (forall l l', e_body xi l = e_body xi l' -> l = l') /\
  reachable xi 1000 x_vals xi_n1 /\
  has_state (tab xi_n1) (x_root xi xi_b2) = false /\
  is_ok (on_block xi xi_n1 (x_sb xi_b2)) = true /\
  on_block xi xi_n1 (mkSB xi_b2.1 8) = Err BlockProofVerificationFailed /\
  has_state (tab xi_n1) (x_root xi xi_b1) = true.
Proof.
  destruct xi_import as (H1 & H2 & H3).
  refine (conj i_header_good (conj i_body_inj (conj xi_reach (conj H1 (conj H2 (conj H3 _)))))).
  vm_compute. reflexivity.
Qed.

(** ** C32 import gates *)
Theorem C32_imported E n sb n' :
  has_state (tab n) (block_root (e_header E) (e_body E) (sb_block sb)) = false ->
  on_block E n sb = Ok n' ->
  exists parent post, import_gates E (nd_db n) sb parent /\
    state_transition (e_state E) (e_header E) (e_body E) parent (sb_block sb) = Ok post.
Proof. exact (C32_imported_pf E n sb n'). Qed.
Print Assumptions C32_imported.

(** Conversely, on a reachable node every block that passes the gates is imported. *)
Theorem C32_complete E gt vals n sb parent post :
  good_hash (e_header E) -> lenN vals <= VALIDATOR_REGISTRY_LIMIT ->
  reachable E gt vals n ->
  has_state (tab n) (block_root (e_header E) (e_body E) (sb_block sb)) = false ->
  import_gates E (nd_db n) sb parent ->
  state_transition (e_state E) (e_header E) (e_body E) parent (sb_block sb) = Ok post ->
  exists n', on_block E n sb = Ok n'.
Proof. intros H1 H2. exact (C32_complete_pf E gt vals H1 H2 n sb parent post). Qed.
Print Assumptions C32_complete.

Example C32_nonvacuous :
  has_state (tab xi_n1) (block_root (e_header xi) (e_body xi) xi_b2.1) = false /\
  exists n', on_block xi xi_n1 (x_sb xi_b2) = Ok n' /\
  exists parent, import_gates xi (nd_db xi_n1) (x_sb xi_b2) parent.
Proof.
  destruct xi_import as (H1 & H2 & _). split; [exact H1|].
  destruct (on_block xi xi_n1 (x_sb xi_b2)) as [n'| |] eqn:Hn; [|discriminate H2|discriminate H2].
  exists n'. split; [reflexivity|]. destruct (C32_imported xi xi_n1 (x_sb xi_b2) n' H1 Hn) as (p & post & Hg & _).
  by exists p.
Qed.

(** ** C33 vote validation *)
Theorem C33_validation_iff E gt vals n a :
  good_hash (e_header E) -> lenN vals <= VALIDATOR_REGISTRY_LIMIT -> acyclic_hash (e_header E) ->
  reachable E gt vals n -> db_time (nd_db n) + 1 < two64 - 1 ->
  validate_attestation_data (nd_db n) a <> Panic /\
  (validate_attestation_data (nd_db n) a = Ok tt <-> vote_ok (nd_db n) a).
Proof. intros H1 H2. exact (C33_reachable_pf E gt vals H1 H2 n a). Qed.
Print Assumptions C33_validation_iff.

(** Where slots decrease along the stored parent links, [reaches] is ancestry. *)
Theorem C33_reaches_ancestry t c r :
  headers_decrease t ->
  (reaches t c r <-> stored_at t c /\ ancestor t (cp_root c) r).
Proof. exact (C33_reaches_ancestry_pf t c r). Qed.
Print Assumptions C33_reaches_ancestry.

(** Gossip messages that are accepted carry such a vote, and a signature that
    verifies under the named validators' keys in the target's state. *)
Theorem C33_gossip_signature E gt vals n sa agg n' :
  good_hash (e_header E) -> lenN vals <= VALIDATOR_REGISTRY_LIMIT -> acyclic_hash (e_header E) ->
  reachable E gt vals n -> db_time (nd_db n) + 1 < two64 - 1 ->
  on_gossip_attestation E n sa agg = Ok n' ->
  let a := sa_data sa in
  vote_ok (nd_db n) a /\
  exists ts v, read_state (tab n) (cp_root (ad_target a)) = Ok (Some ts) /\
    s_validators ts !! N.to_nat (sa_validator sa) = Some v /\
    e_sig_valid E (v_att_key v) (ad_slot a) (e_data E a) (sa_sig sa) = true /\
    nd_votes n' = nd_votes n /\ nd_db n' = nd_db n /\ (agg = false -> n' = n).
Proof. intros H1 H2. exact (C33_signature_pf E gt vals H1 H2 n sa agg n'). Qed.
Print Assumptions C33_gossip_signature.

Theorem C33_gossip_aggregate E gt vals n sg n' :
  good_hash (e_header E) -> lenN vals <= VALIDATOR_REGISTRY_LIMIT -> acyclic_hash (e_header E) ->
  reachable E gt vals n -> db_time (nd_db n) + 1 < two64 - 1 ->
  on_gossip_aggregated_attestation E n sg = Ok n' ->
  let a := sg_data sg in
  vote_ok (nd_db n) a /\ validator_indices (pr_bits (sg_proof sg)) <> [] /\
  exists ts keys, read_state (tab n) (cp_root (ad_target a)) = Ok (Some ts) /\
    keys = omap (fun v => v_att_key <$> s_validators ts !! N.to_nat v) (validator_indices (pr_bits (sg_proof sg))) /\
    length keys = length (validator_indices (pr_bits (sg_proof sg))) /\
    e_agg_valid E (pr_bytes (sg_proof sg)) keys (e_data E a) (ad_slot a) = true /\
    nd_votes n' = record_new (e_data E) (nd_votes n) (pr_bits (sg_proof sg)) a /\
    nd_db n' = nd_db n.
Proof. intros H1 H2. exact (C33_aggregate_pf E gt vals H1 H2 n sg n'). Qed.
Print Assumptions C33_gossip_aggregate.

Example C33_nonvacuous :
  reachable xe 1000 x_vals x_n1 /\ db_time (nd_db x_n1) + 1 < two64 - 1 /\
  validate_attestation_data (nd_db x_n1) x_vote_data = Ok tt /\
  is_ok (on_gossip_attestation xe x_n1 (mkSA 1 x_vote_data 101) true) = true /\
  on_gossip_attestation xe x_n1 (mkSA 1 x_vote_data 102) true = Err SignatureVerificationFailed /\
  is_ok (on_gossip_aggregated_attestation xe x_n1 (mkSAgg x_vote_data (mkProof [false; true; true] 7))) = true.
Proof.
  destruct x_vote_data_ok as (_ & _ & _ & _ & H1 & H2 & H3 & H4 & _).
  exact (conj x_reach1 (conj x_clock (conj H1 (conj H2 (conj H3 H4))))).
Qed.

(** ** C34 attestation duty *)
Theorem C34_target E gt vals n :
  good_hash (e_header E) -> lenN vals <= VALIDATOR_REGISTRY_LIMIT ->
  reachable E gt vals n -> let d := nd_db n in
  exists x y sy cp, lookback_block d x /\ justifiable_below d x y sy /\
    get_attestation_target d = Ok cp /\
    cp = (if sy <? cp_slot (db_just d) then db_just d else mkCp y sy) /\
    ancestor (db_tab d) (cp_root cp) (db_head d) /\
    has_slot (db_tab d) (cp_root cp) (cp_slot cp) /\
    cp_slot (db_just d) <= cp_slot cp /\
    (cp = db_just d \/ slot_is_justifiable_after (cp_slot cp) (cp_slot (db_fin d)) = true).
Proof. intros H1 H2. exact (C34_target_pf E gt vals H1 H2 n). Qed.
Print Assumptions C34_target.

Theorem C34_produced E gt vals n slot :
  good_hash (e_header E) -> lenN vals <= VALIDATOR_REGISTRY_LIMIT ->
  reachable E gt vals n -> let d := nd_db n in
  exists a hs, produce_attestation_data d slot = Ok a /\ ad_slot a = slot /\
    has_slot (db_tab d) (db_head d) hs /\ ad_head a = mkCp (db_head d) hs /\
    get_attestation_target d = Ok (ad_target a) /\
    exists s, read_state (db_tab d) (db_head d) = Ok (Some s) /\
      (cp_root (s_justified s) <> ZERO -> ad_source a = s_justified s) /\
      (cp_root (s_justified s) = ZERO -> ad_source a = mkCp (db_head d) (cp_slot (s_justified s))).
Proof. intros H1 H2. exact (C34_produced_pf E gt vals H1 H2 n slot). Qed.
Print Assumptions C34_produced.

(** Partial: for nodes started from genesis, the produced vote passes the node's own
    validation when its slot has started and is not before the head's. *)
Theorem C34_valid_partial E gt vals n0 es n slot a hd :
  good_hash (e_header E) -> lenN vals <= VALIDATOR_REGISTRY_LIMIT ->
  started E (genesis (e_body E) gt vals) n0 -> node_run E n0 es n ->
  produce_attestation_data (nd_db n) slot = Ok a ->
  has_slot (tab n) (db_head (nd_db n)) hd -> hd <= slot -> slot * 5 <= db_time (nd_db n) + 1 ->
  vote_ok (nd_db n) a /\
  (acyclic_hash (e_header E) -> db_time (nd_db n) + 1 < two64 - 1 ->
   validate_attestation_data (nd_db n) a = Ok tt).
Proof. intros H1 H2. exact (C34_valid_pf E gt vals H1 H2 n0 es n slot a hd). Qed.
Print Assumptions C34_valid_partial.

(** Missing: nodes started from a later checkpoint.  Until a block justified after
    the checkpoint shows up, their votes name a source block they do not store, and
    they reject them. *)
Theorem C34_refuted :
  exists E gt vals n slot a hd, good_hash (e_header E) /\ acyclic_hash (e_header E) /\
    lenN vals <= VALIDATOR_REGISTRY_LIMIT /\ reachable E gt vals n /\
    produce_attestation_data (nd_db n) slot = Ok a /\
    has_slot (tab n) (db_head (nd_db n)) hd /\ hd <= slot /\ slot * 5 <= db_time (nd_db n) + 1 /\
    validate_attestation_data (nd_db n) a = Err UnknownSourceBlock.
Proof.
  exists xe, 1000, x_vals, x_k1, 3, x_k1_vote, 3.
  refine (conj xe_good (conj xe_acyclic (conj x_vals_few (conj x_k1_reach (conj (proj1 x_k1_vote_ok)
    (conj _ (conj _ (conj _ (proj2 x_k1_vote_ok))))))))).
  - eexists. split; vm_compute; reflexivity.
  - vm_compute. discriminate.
  - vm_compute. discriminate.
Qed.
Print Assumptions C34_refuted.

Example C34_nonvacuous :
  started xe x_gen x_n0 /\ node_run xe x_n0 x_es x_n1 /\
  produce_attestation_data (nd_db x_n1) 40 = Ok x_vote_data /\
  ad_head x_vote_data = x_cp xe xb3 /\ ad_target x_vote_data = x_cp xe xb2 /\
  has_slot (tab x_n1) (db_head (nd_db x_n1)) 3 /\ 3 <= 40 /\ 40 * 5 <= db_time (nd_db x_n1) + 1.
Proof.
  destruct x_vote_data_ok as (H1 & H2 & H3 & _).
  refine (conj x_started (conj x_run1 (conj H1 (conj H2 (conj H3 (conj _ (conj _ _))))))).
  - eexists. split; vm_compute; reflexivity.
  - lia.
  - vm_compute. discriminate.
Qed.

(** ** C35 ticks *)
Theorem C35_tick_duties E n ts hp :
  let interval := (ts - db_gt (nd_db n) * 1000) / 800 in
  let first := N.max (db_time (nd_db n) + 1) (interval - 4) in
  on_tick E n ts hp = duties E n first (N.to_nat (interval + 1 - first)) hp.
Proof. exact (C35_tick_duties_pf E n ts hp). Qed.
Print Assumptions C35_tick_duties.

Theorem C35_clock E n ts hp n' :
  on_tick E n ts hp = Ok n' ->
  db_time (nd_db n') = N.max (db_time (nd_db n)) ((ts - db_gt (nd_db n) * 1000) / 800).
Proof. exact (C35_clock_pf E n ts hp n'). Qed.
Print Assumptions C35_clock.

Theorem C35_past E n ts hp :
  (ts - db_gt (nd_db n) * 1000) / 800 <= db_time (nd_db n) -> on_tick E n ts hp = Ok n.
Proof. exact (C35_past_pf E n ts hp). Qed.
Print Assumptions C35_past.

(** Accepting the pending votes: each validator's counted vote becomes the newer
    of its counted and pending votes, nothing stays pending, the pending proofs
    are pushed into the other pool (pruned if finalization advances), and the head
    is the fork choice over the counted votes. *)
Theorem C35_accept E gt vals n n' :
  good_hash (e_header E) -> lenN vals <= VALIDATOR_REGISTRY_LIMIT ->
  reachable E gt vals n -> accept_new_attestations E n = Ok n' ->
  (forall v d, fc_known (nd_votes n') !! v = Some d ->
     (fc_known (nd_votes n) !! v = Some d \/ fc_new (nd_votes n) !! v = Some d) /\
     forall d', fc_known (nd_votes n) !! v = Some d' \/ fc_new (nd_votes n) !! v = Some d' ->
                vote_le (e_data E) d' d) /\
  (forall v, fc_known (nd_votes n') !! v = None ->
     fc_known (nd_votes n) !! v = None /\ fc_new (nd_votes n) !! v = None) /\
  fc_new (nd_votes n') = ∅ /\
  nd_new n' = buf_new (bf_cap (nd_new n)) /\
  (exists bs b, pool_run (e_data E) (nd_known n) (all_pushes (nd_new n)) bs b /\
     (nd_known n' = b \/
      (cp_slot (db_fin (nd_db n)) < cp_slot (db_fin (nd_db n')) /\
       exists k, payload_prune (cp_slot (db_fin (nd_db n'))) b = Ok (nd_known n', k)))) /\
  (exists w, compute_lmd_ghost_head (cp_root (db_just (nd_db n))) (map_to_list (live_chain (tab n)))
               (map_to_list (fc_known (nd_votes n'))) 0 = Some (db_head (nd_db n'), w)) /\
  db_just (nd_db n') = db_just (nd_db n) /\ db_time (nd_db n') = db_time (nd_db n).
Proof. exact (C35_accept_pf E gt vals n n'). Qed.
Print Assumptions C35_accept.

(** Updating the safe target: the fork choice over the pending votes only, with
    two thirds of the head state's validators as the least weight; nothing else
    changes. *)
Theorem C35_safe n n' :
  update_safe_target n = Ok n' ->
  exists s r w, read_state (tab n) (db_head (nd_db n)) = Ok (Some s) /\
    compute_lmd_ghost_head (cp_root (db_just (nd_db n))) (map_to_list (live_chain (tab n)))
      (map_to_list (fc_new (nd_votes n))) ((lenN (s_validators s) * 2 + 2) / 3) = Some (r, w) /\
    n' = mkNode (mkDb (db_time (nd_db n)) (db_gt (nd_db n)) (db_head (nd_db n)) r (db_just (nd_db n))
                   (db_fin (nd_db n)) (db_tab (nd_db n)))
           (nd_votes n) (nd_new n) (nd_known n) (nd_gossip n).
Proof. exact (C35_safe_pf n n'). Qed.
Print Assumptions C35_safe.

(** From genesis to slot 1's third interval: intervals 4 to 8. *)
Example C35_nonvacuous :
  let interval := (x_at 1 3 - db_gt (nd_db x_n0) * 1000) / 800 in
  (interval, N.max (db_time (nd_db x_n0) + 1) (interval - 4)) = (8, 4) /\
  is_ok (on_tick xe x_n0 (x_at 1 3) false) = true /\
  (x_at 0 0 - db_gt (nd_db x_n1) * 1000) / 800 <= db_time (nd_db x_n1).
Proof. split_and!; [vm_compute; reflexivity..|vm_compute; discriminate]. Qed.

(** An aggregate of two validators arrives, then the slot ends. *)
Example C35_accept_nonvacuous :
  node_run xe x_n1 [ev_aggregate x_agg] x_n3 /\ reachable xe 1000 x_vals x_n3 /\
  bool_decide (fc_new (nd_votes x_n3) !! 2 = Some x_vote_data) = true /\
  length (all_pushes (nd_new x_n3)) = 1%nat /\
  match accept_new_attestations xe x_n3 with
  | Ok n' => bool_decide (fc_known (nd_votes n') !! 2 = Some x_vote_data) && (bf_total (nd_known n') =? 1)
  | _ => false
  end = true /\
  is_ok (update_safe_target x_n3) = true.
Proof. refine (conj x_run3 (conj x_reach3 (conj _ (conj _ (conj _ _))))); vm_compute; reflexivity. Qed.

(** ** C36 reorg depth *)
Theorem C36_reorg_depth t old new hi lo d :
  old <> new -> higher_lower t old new hi lo ->
  (reorg_depth t old new = Some d <->
   (exists k, d = N.of_nat k /\ (k < 128)%nat /\ leaves_out t hi lo k) \/ (d = 128 /\ too_long t hi lo)).
Proof. exact (C36_reorg_depth_pf t old new hi lo d). Qed.
Print Assumptions C36_reorg_depth.

Example C36_nonvacuous :
  higher_lower (tab x_n2) (x_root xe xb3) (x_root xe xy) (x_root xe xy) (x_root xe xb3) /\
  reorg_depth (tab x_n2) (x_root xe xb3) (x_root xe xy) = Some 1 /\
  reorg_depth (tab x_n2) (x_root xe xb2) (x_root xe xy) = None.
Proof. exact x_reorg. Qed.
