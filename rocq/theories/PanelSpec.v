(** Vocabulary for the page of the event monitor. *)
From Verif Require Export Panel.
Local Open Scope N_scope.

(** The smallest number of some kind. *)
Definition least (P : N -> Prop) (m : N) : Prop := P m /\ forall x, P x -> m <= x.
(** Events that the panel shows: of a topic with identifiers, and of a configured node. *)
Definition counted (nodes : list N) (e : PEv) : Prop := pe_topic e <> TOther /\ pe_id e <> None /\ pe_node e ∈ nodes.
(** [e] says that its node has the block or aggregate [i]. *)
Definition sighting (nodes : list N) (t : PTopic) (i : N) (e : PEv) : Prop :=
  counted nodes e /\ pe_topic e = t /\ pe_id e = Some i.
Definition seen_at nodes t i (l : list PEv) (a : N) : Prop := exists e, e ∈ l /\ sighting nodes t i e /\ pe_arrival e = a.
Definition seen_by nodes t i (l : list PEv) (n a : N) : Prop :=
  exists e, e ∈ l /\ sighting nodes t i e /\ pe_node e = n /\ pe_arrival e = a.
Definition events_of (l : list PanelOp) : list PEv := omap (fun o => match o with OEvent e => Some e | _ => None end) l.
(** At most 400 different blocks or aggregates. *)
Definition fits nodes t (l : list PEv) : Prop := exists K : list N, lenN K <= 400 /\ forall e i, e ∈ l -> sighting nodes t i e -> i ∈ K.
