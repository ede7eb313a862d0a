(** C83: nodes that know the same agree. *)
From Verif Require Import AgreeProofs AgreeExamples.

(** The head is found from the justified checkpoint, the blocks from its slot on and
    the latest votes alone: two nodes, whatever their histories and anchors, that see
    the same have the same head after an update. *)
Theorem C83_same_head E gt vals n1 n2 :
  good_hash (e_header E) -> lenN vals <= VALIDATOR_REGISTRY_LIMIT ->
  reachable E gt vals n1 -> reachable E gt vals n2 -> same_view n1 n2 ->
  exists n1' n2', update_head n1 = Ok n1' /\ update_head n2 = Ok n2' /\
    db_head (nd_db n1') = db_head (nd_db n2') /\ settled n1' /\ settled n2'.
Proof. intros Hg Hv. exact (same_head_pf E gt vals Hg Hv n1 n2). Qed.
Print Assumptions C83_same_head.
Example C83_same_head_nonvacuous :
  good_hash (e_header ye) /\ lenN x_vals <= VALIDATOR_REGISTRY_LIMIT /\
  reachable ye 1000 x_vals y_n1 /\ reachable ye 1000 x_vals y_n2 /\ same_view y_n1 y_n2.
Proof. exact (conj ye_good (conj x_vals_few (conj y_reach1 (conj y_reach2 y_view)))). Qed.

(** The head is up to date after a new block is imported and after the pending votes
    are accepted. *)
Theorem C83_settled E gt vals n :
  good_hash (e_header E) -> lenN vals <= VALIDATOR_REGISTRY_LIMIT -> reachable E gt vals n ->
  (forall sb n', on_block E n sb = Ok n' ->
     has_state (tab n) (block_root (e_header E) (e_body E) (sb_block sb)) = false -> settled n') /\
  (forall n', accept_new_attestations E n = Ok n' -> settled n').
Proof. intros Hg Hv. exact (settled_pf E gt vals Hg Hv n). Qed.
Print Assumptions C83_settled.
Example C83_settled_nonvacuous :
  reachable ye 1000 x_vals y_n1 /\ is_ok (on_block ye y_n1 (x_sb yv2)) = true /\
  has_state (tab y_n1) (block_root (e_header ye) (e_body ye) (sb_block (x_sb yv2))) = false /\
  is_ok (accept_new_attestations ye y_n1) = true.
Proof. split; [exact y_reach1|]. split_and!; vm_compute; reflexivity. Qed.

(** Two nodes that started from one anchor, see the same and have up-to-date heads
    have the same head and the same canonical chain; if they started at genesis, also
    the same finalized checkpoint. *)
Theorem C83_agree E gt vals a n1 n2 :
  good_hash (e_header E) -> lenN vals <= VALIDATOR_REGISTRY_LIMIT ->
  valid_anchor E gt vals a -> run_from E a n1 -> run_from E a n2 ->
  same_view n1 n2 -> settled n1 -> settled n2 ->
  db_head (nd_db n1) = db_head (nd_db n2) /\
  (forall slot, t_roots (tab n1) !! slot = t_roots (tab n2) !! slot) /\
  (s_slot a = 0 -> db_fin (nd_db n1) = db_fin (nd_db n2)).
Proof. intros Hg Hv. exact (agree_pf E gt vals Hg Hv a n1 n2). Qed.
Print Assumptions C83_agree.
Example C83_agree_nonvacuous :
  valid_anchor ye 1000 x_vals y_gen /\ run_from ye y_gen y_n1 /\ run_from ye y_gen y_n2 /\
  same_view y_n1 y_n2 /\ settled y_n1 /\ settled y_n2 /\ s_slot y_gen = 0 /\
  db_head (nd_db y_n1) = x_root ye yu2 /\ cp_slot (db_just (nd_db y_n1)) = 1 /\
  has_state (tab y_n1) (x_root ye yv1) = true.
Proof.
  exact (conj y_anchor (conj y_from1 (conj y_from2 (conj y_view (conj y_settled1 (conj y_settled2
    (conj eq_refl y_head))))))).
Qed.

(** The safe target follows from the same knowledge, with the votes not yet accepted. *)
Theorem C83_safe_target E gt vals n1 n2 n1' n2' :
  good_hash (e_header E) -> lenN vals <= VALIDATOR_REGISTRY_LIMIT ->
  reachable E gt vals n1 -> reachable E gt vals n2 ->
  db_just (nd_db n1) = db_just (nd_db n2) ->
  (forall r s, cp_slot (db_just (nd_db n1)) <= s_slot s ->
    (read_state (tab n1) r = Ok (Some s) <-> read_state (tab n2) r = Ok (Some s))) ->
  (forall v, fc_new (nd_votes n1) !! v = fc_new (nd_votes n2) !! v) ->
  update_safe_target n1 = Ok n1' -> update_safe_target n2 = Ok n2' ->
  db_safe (nd_db n1') = db_safe (nd_db n2').
Proof. intros Hg Hv. exact (same_safe_pf E gt vals Hg Hv n1 n2 n1' n2'). Qed.
Print Assumptions C83_safe_target.
Example C83_safe_target_nonvacuous :
  reachable ye 1000 x_vals y_n1 /\ reachable ye 1000 x_vals y_n2 /\ same_view y_n1 y_n2 /\
  (forall v, fc_new (nd_votes y_n1) !! v = fc_new (nd_votes y_n2) !! v) /\
  is_ok (update_safe_target y_n1) = true /\ is_ok (update_safe_target y_n2) = true.
Proof.
  split; [exact y_reach1|]. split; [exact y_reach2|]. split; [exact y_view|].
  split; [exact y_new_same|]. split; vm_compute; reflexivity.
Qed.

(** Two nodes with the same head, safe target and checkpoints cast the same vote. *)
Theorem C83_same_vote E gt vals n1 n2 slot a1 a2 :
  good_hash (e_header E) -> lenN vals <= VALIDATOR_REGISTRY_LIMIT ->
  reachable E gt vals n1 -> reachable E gt vals n2 ->
  db_head (nd_db n1) = db_head (nd_db n2) -> db_safe (nd_db n1) = db_safe (nd_db n2) ->
  db_just (nd_db n1) = db_just (nd_db n2) -> db_fin (nd_db n1) = db_fin (nd_db n2) ->
  read_state (tab n1) (db_head (nd_db n1)) = read_state (tab n2) (db_head (nd_db n2)) ->
  produce_attestation_data (nd_db n1) slot = Ok a1 ->
  produce_attestation_data (nd_db n2) slot = Ok a2 -> a1 = a2.
Proof. intros Hg Hv. exact (same_vote_pf E gt vals Hg Hv n1 n2 slot a1 a2). Qed.
Print Assumptions C83_same_vote.
Example C83_same_vote_nonvacuous :
  (db_head (nd_db y_n1) = db_head (nd_db y_n2) /\ db_safe (nd_db y_n1) = db_safe (nd_db y_n2) /\
   db_just (nd_db y_n1) = db_just (nd_db y_n2) /\ db_fin (nd_db y_n1) = db_fin (nd_db y_n2) /\
   read_state (tab y_n1) (db_head (nd_db y_n1)) = read_state (tab y_n2) (db_head (nd_db y_n2))) /\
  produce_attestation_data (nd_db y_n1) 5 = Ok y_att /\ is_ok (produce_attestation_data (nd_db y_n2) 5) = true /\
  cp_root (ad_head y_att) = x_root ye yu2 /\ ad_slot y_att = 5.
Proof. exact (conj y_vote_hyps y_vote). Qed.

(** From one state, import blocks in any two orders, with repetitions and rejections.
    If the same blocks end up imported, the nodes have the same states, latest votes,
    head, canonical chain and checkpoints, unless two imported chains prove that a
    third of the validators broke the voting rules. *)
Theorem C83_import_order E gt vals a n0 l1 n1 l2 n2 :
  good_hash (e_header E) -> lenN vals <= VALIDATOR_REGISTRY_LIMIT ->
  (forall x y, e_body E x = e_body E y -> x = y) -> (forall x y, e_data E x = e_data E y -> x = y) ->
  valid_anchor E gt vals a -> run_from E a n0 ->
  node_run E n0 (map ev_block l1) n1 -> node_run E n0 (map ev_block l2) n2 ->
  (forall r, has_state (tab n1) r = has_state (tab n2) r) ->
  (forall r, read_state (tab n1) r = read_state (tab n2) r) /\
  (forall v, fc_known (nd_votes n1) !! v = fc_known (nd_votes n2) !! v) /\
  cp_slot (db_just (nd_db n1)) = cp_slot (db_just (nd_db n2)) /\
  ((db_just (nd_db n1) = db_just (nd_db n2) /\ db_head (nd_db n1) = db_head (nd_db n2) /\
    (forall slot, t_roots (tab n1) !! slot = t_roots (tab n2) !! slot) /\
    (s_slot a = 0 -> db_fin (nd_db n1) = db_fin (nd_db n2))) \/
   exists s1 bs1 s2 bs2, imported_chain E gt vals n1 s1 bs1 /\ imported_chain E gt vals n2 s2 bs2 /\
     s_justified s1 = db_just (nd_db n1) /\ s_justified s2 = db_just (nd_db n2) /\
     one_third (lenN vals) (slashable (bs1 ++ bs2))).
Proof. intros Hg Hv. exact (import_order_pf E gt vals Hg Hv a n0 l1 n1 l2 n2). Qed.
Print Assumptions C83_import_order.
Example C83_import_order_nonvacuous :
  (forall x y, e_body ye x = e_body ye y -> x = y) /\ (forall x y, e_data ye x = e_data ye y -> x = y) /\
  valid_anchor ye 1000 x_vals y_gen /\ run_from ye y_gen y_n0 /\
  node_run ye y_n0 (map ev_block y_l1) y_n1 /\ node_run ye y_n0 (map ev_block y_l2) y_n2 /\
  (forall r, has_state (tab y_n1) r = has_state (tab y_n2) r) /\
  db_head (nd_db y_n1) = x_root ye yu2 /\ cp_slot (db_just (nd_db y_n1)) = 1 /\
  has_state (tab y_n1) (x_root ye yv1) = true.
Proof.
  exact (conj i_body_inj (conj i_data_inj (conj y_anchor (conj y_run0 (conj y_run1 (conj y_run2
    (conj y_same12 y_head))))))).
Qed.
(** The exception is real: when all validators vote for two blocks of one slot, the
    order of the imports decides, and the nodes stay on different branches. *)
Example C83_order_matters :
  node_run ye y_n0 (map ev_block y_l3) y_n3 /\ node_run ye y_n0 (map ev_block y_l4) y_n4 /\
  (forall r, has_state (tab y_n3) r = has_state (tab y_n4) r) /\
  db_just (nd_db y_n3) <> db_just (nd_db y_n4) /\ db_head (nd_db y_n3) <> db_head (nd_db y_n4) /\
  db_head (nd_db y_n3) = x_root ye yu2 /\ db_head (nd_db y_n4) = x_root ye yv2.
Proof. exact (conj y_run3 (conj y_run4 (conj y_same34 y_differ))). Qed.
