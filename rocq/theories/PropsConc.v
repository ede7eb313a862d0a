(** Requests served while the node works. *)
From Verif Require Import ConcExamples.
Local Open Scope N_scope.

(** ** C82: reads of one request may fall before and after commits of the node.  The
    contents the database goes through end with the present one. *)
Theorem C82_timeline E gt vals l n :
  good_hash (e_header E) -> lenN vals <= VALIDATOR_REGISTRY_LIMIT -> history E gt vals l n ->
  last l = Some (nd_db n).
Proof. intros H1 H2. exact (history_last E gt vals H1 H2 l n). Qed.
Print Assumptions C82_timeline.

(** If nothing is committed meanwhile, the answers are those of Serve.v. *)
Theorem C82_undisturbed E n slot k :
  let d := nd_db n in
  status_reads d d d = build_status n /\
  fork_choice_reads (known_votes n) d d d d d d d (fun _ => d) = http_get_fork_choice n /\
  range_reads E slot (repeat (d, d, d, d) k) = blocks_from (e_body E) k slot (tab n).
Proof. exact (conj (status_same n) (conj (fork_choice_same n) (range_same E n k slot))). Qed.
Print Assumptions C82_undisturbed.

(** A status message names a block that was the head with its slot, and the finalized
    checkpoint in it is not above that block. *)
Theorem C82_status E gt vals l n d1 d2 d3 :
  good_hash (e_header E) -> lenN vals <= VALIDATOR_REGISTRY_LIMIT ->
  history E gt vals l n -> reads l [d1; d2; d3] ->
  exists sl, status_reads d1 d2 d3 = Ok (mkStatus (db_fin d1) (mkCp (db_head d2) sl)) /\
    has_slot (db_tab d2) (db_head d2) sl /\ cp_slot (db_fin d1) <= sl.
Proof. intros H1 H2. exact (status_reads_ok E gt vals H1 H2 l n d1 d2 d3). Qed.
Print Assumptions C82_status.

(** The sync report is answered, with the slot of a block that was the head.  Missing:
    its finalized slot is not above its head slot. *)
Theorem C82_syncing_partial E gt vals l n wall d1 d2 d3 :
  good_hash (e_header E) -> lenN vals <= VALIDATOR_REGISTRY_LIMIT ->
  history E gt vals l n -> reads l [d1; d2; d3] ->
  exists sl, syncing_reads wall d1 d2 d3 = Ok (mkSyncing sl (wall - sl) (cp_slot (db_fin d3))) /\
    has_slot (db_tab d1) (db_head d1) sl.
Proof. intros H1 H2. exact (syncing_reads_ok E gt vals H1 H2 l n wall d1 d2 d3). Qed.
Print Assumptions C82_syncing_partial.

(** It may be: the head is read first, and the node finalizes before the other read. *)
Theorem C82_syncing_refuted : exists E gt vals l n wall d1 d2 d3 s,
  good_hash (e_header E) /\ lenN vals <= VALIDATOR_REGISTRY_LIMIT /\
  history E gt vals l n /\ reads l [d1; d2; d3] /\
  syncing_reads wall d1 d2 d3 = Ok s /\ sy_head_slot s < sy_finalized_slot s.
Proof. exact C82_syncing_refuted_pf. Qed.
Print Assumptions C82_syncing_refuted.

(** A header asked for by slot is the one of the chain of the head when the request
    began; what the request would have found at once, it finds. *)
Theorem C82_header E gt vals l n slot d1 d2 d3 :
  good_hash (e_header E) -> lenN vals <= VALIDATOR_REGISTRY_LIMIT ->
  history E gt vals l n -> reads l [d1; d2; d3] ->
  exists x, header_reads slot d1 d2 d3 = Ok x /\ x <> HInvalid /\
    (forall h, header_reads slot d1 d1 d1 = Ok (HOk h) -> x = HOk h) /\
    (forall h, x = HOk h -> exists s, read_state (db_tab d1) (db_head d1) = Ok (Some s) /\
       getN (s_hist s) slot = Some (e_header E h) /\ t_headers (db_tab d3) !! e_header E h = Some h).
Proof. intros H1 H2. exact (header_reads_ok E gt vals H1 H2 l n slot d1 d2 d3). Qed.
Print Assumptions C82_header.

(** A fork choice report is answered; its blocks are those of the live chain at the
    first read, each with its own slot, parent and proposer, and with the votes of its
    subtree.  Missing: the head of the report is one of its blocks. *)
Theorem C82_fork_choice_partial E gt vals l n V d1 d2 d3 d4 d5 d6 d7 dh :
  good_hash (e_header E) -> lenN vals <= VALIDATOR_REGISTRY_LIMIT ->
  history E gt vals l n -> (forall r, reads l [d1; d2; d3; d4; d5; d6; d7; dh r]) ->
  exists R, fork_choice_reads (map_to_list V) d1 d2 d3 d4 d5 d6 d7 dh = Ok R /\
    fcr_head R = db_head d4 /\ fcr_safe R = db_safe d5 /\
    fcr_justified R = db_just d2 /\ fcr_finalized R = db_fin d3 /\ fcr_validators R = lenN vals /\
    NoDup (map fcn_root (fcr_nodes R)) /\
    (forall r, r ∈ map fcn_root (fcr_nodes R) <-> is_Some (live_chain (db_tab d1) !! r)) /\
    forall x, x ∈ fcr_nodes R -> exists h, t_headers (db_tab d1) !! fcn_root x = Some h /\
      fcn_slot x = h_slot h /\ fcn_parent x = h_parent h /\ fcn_proposer x = h_proposer h /\
      (if h_slot h <=? cp_slot (db_fin d3) then fcn_weight x = 0
       else counts (fcn_weight x) (votes_for_subtree (live_chain (db_tab d1)) V (fcn_root x))).
Proof. intros H1 H2. exact (fork_choice_reads_ok E gt vals H1 H2 l n V d1 d2 d3 d4 d5 d6 d7 dh). Qed.
Print Assumptions C82_fork_choice_partial.

(** It may not be: a block becomes head between the two reads. *)
Theorem C82_fork_choice_refuted : exists E gt vals l n V d1 d2 d3 d4 d5 d6 d7 dh R,
  good_hash (e_header E) /\ lenN vals <= VALIDATOR_REGISTRY_LIMIT /\
  history E gt vals l n /\ (forall r, reads l [d1; d2; d3; d4; d5; d6; d7; dh r]) /\
  fork_choice_reads (map_to_list V) d1 d2 d3 d4 d5 d6 d7 dh = Ok R /\ fcr_head R ∉ map fcn_root (fcr_nodes R).
Proof. exact C82_fork_choice_refuted_pf. Qed.
Print Assumptions C82_fork_choice_refuted.

(** A block handed out has the root asked for, though its parts are read at three
    moments. *)
Theorem C82_block E gt vals l n d1 d2 d3 r sb :
  good_hash (e_header E) -> lenN vals <= VALIDATOR_REGISTRY_LIMIT ->
  history E gt vals l n -> reads l [d1; d2; d3] ->
  signed_block_reads E d1 d2 d3 r = Some sb -> sb_root E sb = r.
Proof. intros H1 H2. exact (signed_reads_ok E gt vals H1 H2 l n d1 d2 d3 r sb). Qed.
Print Assumptions C82_block.

(** The blocks of a range answer lie in the range and ascend, and each was on the chain
    of the head at the moment its slot was looked up.  Missing: they lie on one chain. *)
Theorem C82_range_partial E gt vals l n start ds :
  good_hash (e_header E) -> lenN vals <= VALIDATOR_REGISTRY_LIMIT ->
  history E gt vals l n -> reads l (range_dbs ds) ->
  let R := range_reads E start ds in
  StronglySorted N.lt (map (fun sb => b_slot (sb_block sb)) R) /\
  forall sb, sb ∈ R -> start <= b_slot (sb_block sb) < start + lenN ds /\
    exists x d, x ∈ ds /\ d = x.1.1.1 /\ ancestor (db_tab d) (sb_root E sb) (db_head d).
Proof. intros H1 H2 H. exact (range_reads_sound E gt vals H1 H2 l n ds H start). Qed.
Print Assumptions C82_range_partial.

(** They do if the head only moved forward during the request. *)
Theorem C82_range_steady E gt vals l n start ds dl :
  good_hash (e_header E) -> lenN vals <= VALIDATOR_REGISTRY_LIMIT ->
  history E gt vals l n -> reads l (range_dbs ds ++ [dl]) ->
  (forall d, d ∈ range_dbs ds -> ancestor (db_tab dl) (db_head d) (db_head dl)) ->
  forall sb, sb ∈ range_reads E start ds -> ancestor (db_tab dl) (sb_root E sb) (db_head dl).
Proof. intros H1 H2. exact (range_reads_steady E gt vals H1 H2 l n ds start dl). Qed.
Print Assumptions C82_range_steady.

(** No block is left out that was on the chain of the head and complete when its slot
    was looked up, and still complete at the end of that lookup. *)
Theorem C82_range_complete E gt vals l n start ds i d0 d1 d2 d3 r :
  good_hash (e_header E) -> lenN vals <= VALIDATOR_REGISTRY_LIMIT ->
  history E gt vals l n -> reads l (range_dbs ds) -> ds !! i = Some (d0, d1, d2, d3) ->
  ancestor (db_tab d0) r (db_head d0) -> has_slot (db_tab d0) r (start + N.of_nat i) ->
  is_Some (get_signed_block (e_body E) (db_tab d0) r) -> is_Some (get_signed_block (e_body E) (db_tab d3) r) ->
  exists sb, sb ∈ range_reads E start ds /\ sb_root E sb = r.
Proof. intros H1 H2 H. exact (range_reads_complete E gt vals H1 H2 l n ds H start i d0 d1 d2 d3 r). Qed.
Print Assumptions C82_range_complete.

(** One answer may hold blocks of two forks: the head changes between two slots. *)
Theorem C82_range_refuted : exists E gt vals l n start ds sb1 sb2,
  good_hash (e_header E) /\ lenN vals <= VALIDATOR_REGISTRY_LIMIT /\
  history E gt vals l n /\ reads l (range_dbs ds) /\
  sb1 ∈ range_reads E start ds /\ sb2 ∈ range_reads E start ds /\
  ~ ancestor (tab n) (sb_root E sb1) (sb_root E sb2) /\ ~ ancestor (tab n) (sb_root E sb2) (sb_root E sb1).
Proof. exact C82_range_refuted_pf. Qed.
Print Assumptions C82_range_refuted.

(** A history through three heads, read in that order; a range over it. *)
Example C82_nonvacuous : exists l i j,
  history xe 1000 x_vals l x_n2 /\ (i <= j)%nat /\
  l !! 0%nat = Some (nd_db x_n0) /\ l !! i = Some (nd_db x_n1) /\ l !! j = Some (nd_db x_n2).
Proof. exact x_history. Qed.
Example C82_range_nonvacuous l i j :
  (i <= j)%nat -> l !! i = Some (nd_db x_n1) -> l !! j = Some (nd_db x_n2) ->
  reads l (range_dbs x_ds) /\ map (fun sb => b_slot (sb_block sb)) (range_reads xe 3 x_ds) = [3; 40].
Proof. intros H1 H2 H3. split; [exact (x_ds_reads l i j H1 H2 H3)|vm_compute; reflexivity]. Qed.
Example C82_commits_nonvacuous :
  length (commits xe x_n1 (ev_block (x_sb xy))) = 5%nat /\
  length (commits xe x_n0 (ev_tick (x_at 40 1) false)) = 9%nat.
Proof. vm_compute. done. Qed.
