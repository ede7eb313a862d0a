(** The upper panel of the event monitor's page: a dot per event, at its time within the slot.
    Models tooling/event-monitor/web/beeswarm.js:5-6, 73-79, 115-143, 241-252, 273-279, 329-332.
    Simplified: names are numbers; positions on the canvas, fading and jitter are left out. *)
From Verif Require Export Lib.
Local Open Scope N_scope.

Inductive STopic := SBlock | SAttestation | SAggregate | SOther.
Global Instance stopic_eq_dec : EqDecision STopic.
Proof. solve_decision. Defined.
Record SEv := mkSEv { se_node : N; se_topic : STopic; se_slot : N; se_offset : Z }.
Record Pt := mkPt { pt_topic : STopic; pt_offset : Z; pt_early : bool; pt_slot : N }.
Record Swarm := mkSwarm { sw_lanes : gmap N (list Pt); sw_max : N; sw_window : N }.
(** beeswarm.js:6 *)
Definition MAX_POINTS_PER_NODE : N := 2000.
(** beeswarm.js:73-79 *)
Definition swarm0 (nodes : list N) (window : N) : Swarm :=
  mkSwarm (foldr (fun n m => <[n := []]> m) ∅ nodes) 0 window.
(** beeswarm.js:120-138 *)
Definition point (ms : N) (e : SEv) : Pt :=
  mkPt (se_topic e) (Z.min (Z.max (se_offset e) 0) (Z.of_N (ms * 2))) (se_offset e <? 0)%Z (se_slot e).
(** beeswarm.js:115-143 *)
Definition swarm_add (ms : N) (s : Swarm) (e : SEv) : Swarm :=
  match se_topic e with
  | SOther => s
  | _ =>
      match sw_lanes s !! se_node e with
      | None => s
      | Some arr =>
          let max := if sw_max s <? se_slot e then se_slot e else sw_max s in
          let arr' := (arr ++ [point ms e])%list in
          let arr'' := if MAX_POINTS_PER_NODE <? lenN arr' then drop (N.to_nat (lenN arr' - MAX_POINTS_PER_NODE)) arr' else arr' in
          mkSwarm (<[se_node e := arr'']> (sw_lanes s)) max (sw_window s)
      end
  end.
(** beeswarm.js:275-277 *)
Fixpoint drop_aged (max window : N) (l : list Pt) : list Pt :=
  match l with p :: l' => if window <=? max - pt_slot p then drop_aged max window l' else l | [] => [] end.
(** beeswarm.js:273-279 *)
Definition swarm_prune (s : Swarm) : Swarm :=
  mkSwarm (drop_aged (sw_max s) (sw_window s) <$> sw_lanes s) (sw_max s) (sw_window s).
(** beeswarm.js:329-332 *)
Definition swarm_window (s : Swarm) (n : N) : Swarm := mkSwarm (sw_lanes s) (sw_max s) (N.max 1 n).
(** beeswarm.js:241-252: what is drawn in the lane of a node *)
Definition lane (s : Swarm) (n : N) : list Pt :=
  List.filter (fun p => negb (sw_window s <=? sw_max s - pt_slot p)) (default [] (sw_lanes s !! n)).

Inductive SOp := SEvent (e : SEv) | SPrune | SWindow (n : N).
Definition swarm_op (ms : N) (s : Swarm) (o : SOp) : Swarm :=
  match o with SEvent e => swarm_add ms s e | SPrune => swarm_prune s | SWindow n => swarm_window s n end.
Definition swarm_run (ms : N) (s : Swarm) (l : list SOp) : Swarm := foldl (swarm_op ms) s l.
