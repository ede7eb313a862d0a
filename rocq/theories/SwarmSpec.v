(** Vocabulary for the upper panel of the event monitor's page. *)
From Verif Require Export Swarm.
Local Open Scope N_scope.

(** The events of the shown topics from the configured nodes; those of one node. *)
Definition s_counted (nodes : list N) (e : SEv) : Prop := se_node e ∈ nodes /\ se_topic e <> SOther.
Fixpoint s_events (l : list SOp) : list SEv :=
  match l with [] => [] | SEvent e :: l' => e :: s_events l' | _ :: l' => s_events l' end.
Fixpoint of_node (n : N) (l : list SEv) : list SEv :=
  match l with
  | [] => []
  | e :: l' => match se_topic e with SOther => of_node n l' | _ => if se_node e =? n then e :: of_node n l' else of_node n l' end
  end.
Definition last_of {A} (k : nat) (l : list A) : list A := drop (length l - k) l.
(** What a dot says of its event. *)
Definition shows (ms : N) (e : SEv) (p : Pt) : Prop :=
  pt_topic p = se_topic e /\ pt_slot p = se_slot e /\ (pt_early p = true <-> (se_offset e < 0)%Z) /\
  ((se_offset e <= 0)%Z /\ pt_offset p = 0%Z \/ (0 <= se_offset e <= 2 * Z.of_N ms)%Z /\ pt_offset p = se_offset e \/
   (2 * Z.of_N ms <= se_offset e)%Z /\ (0 <= se_offset e)%Z /\ pt_offset p = (2 * Z.of_N ms)%Z).
(** [e] is at most [w - 1] slots behind the newest event. *)
Definition s_recent nodes (l : list SEv) (w : N) (e : SEv) : Prop := Forall (fun x => s_counted nodes x -> se_slot x < se_slot e + w) l.
Global Instance s_recent_dec nodes l w e : Decision (s_recent nodes l w e).
Proof. unfold s_recent, s_counted. apply _. Defined.
