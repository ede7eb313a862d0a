(** The upper panel of the event monitor's page. *)
From Verif Require Import SwarmSpec SwarmProofs.
Local Open Scope N_scope.

(** ** C92 the panel of arrival times *)

(** In full: in the lane of each configured node the panel shows a dot for every event of
    this node that is recent, in the order of arrival, at its time within the slot (cut to two
    slots), outlined if it came before its slot; the clean-ups cannot be noticed.  Proved of
    the last 2000 events of the node, as long as the window was never narrower than now. *)
Theorem C92_lane_partial ms nodes w0 ops n :
  let s := swarm_run ms (swarm0 nodes w0) ops in let w := sw_window s in let events := s_events ops in
  n ∈ nodes -> w <= w0 -> (forall m, SWindow m ∈ ops -> w <= N.max 1 m) ->
  Forall2 (shows ms) (filter (s_recent nodes events w) (last_of 2000 (of_node n events))) (lane s n).
Proof. exact (lane_pf ms nodes w0 ops n). Qed.
Print Assumptions C92_lane_partial.

(** A node that has sent 2000 votes since shows no block any more, although it is recent. *)
Definition xs_block : SEv := mkSEv 1 SBlock 10 100.
Definition xs_ops : list SOp := SEvent xs_block :: map SEvent (replicate 2000 (mkSEv 1 SAttestation 10 900)).
Theorem C92_flood_refuted : exists ms nodes w ops e,
  let s := swarm_run ms (swarm0 nodes w) ops in
  e ∈ s_events ops /\ se_node e ∈ nodes /\ se_topic e = SBlock /\ s_recent nodes (s_events ops) w e /\
  Forall (fun p => pt_topic p = SAttestation) (lane s (se_node e)).
Proof.
  exists 4000, [1], 30, xs_ops, xs_block. split; [by left|]. split; [by left|]. split; [reflexivity|]. split.
  - refine (bool_decide_unpack _ _). vm_compute. exact I.
  - refine (bool_decide_unpack _ _). vm_compute. exact I.
Qed.
Print Assumptions C92_flood_refuted.

(** Events that were cleaned up do not come back when the window is widened. *)
Theorem C92_window_refuted : exists ms nodes w ops e,
  let s := swarm_run ms (swarm0 nodes w) ops in
  e ∈ s_events ops /\ se_node e ∈ nodes /\ se_topic e = SBlock /\ s_recent nodes (s_events ops) (sw_window s) e /\ lane s (se_node e) = [].
Proof.
  exists 4000, [1; 2], 30, [SEvent xs_block; SEvent (mkSEv 2 SBlock 45 200); SPrune; SWindow 60], xs_block.
  split; [by left|]. split; [by left|]. split; [reflexivity|]. split; [refine (bool_decide_unpack _ _); vm_compute; exact I|vm_compute; reflexivity].
Qed.
Print Assumptions C92_window_refuted.

(** Non-vacuity: a clean-up in between, and an event before its slot. *)
Example C92_example :
  let ops := [SEvent (mkSEv 1 SBlock 10 100); SEvent (mkSEv 2 SBlock 45 200); SPrune; SEvent (mkSEv 1 SAggregate 46 (-30)); SEvent (mkSEv 1 SOther 46 0);
              SEvent (mkSEv 7 SBlock 90 0); SEvent (mkSEv 1 SBlock 45 9000)] in
  lane (swarm_run 4000 (swarm0 [1; 2] 30) ops) 1 = [mkPt SAggregate 0 true 46; mkPt SBlock 8000 false 45] /\
  of_node 1 (s_events ops) = [mkSEv 1 SBlock 10 100; mkSEv 1 SAggregate 46 (-30); mkSEv 1 SBlock 45 9000] /\
  filter (s_recent [1; 2] (s_events ops) 30) (of_node 1 (s_events ops)) = [mkSEv 1 SAggregate 46 (-30); mkSEv 1 SBlock 45 9000].
Proof. split; [|split]; vm_compute; reflexivity. Qed.
