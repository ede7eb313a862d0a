(** Vocabulary for the agreement of nodes. *)
From Verif Require Export NodeSpec Safety.

(** Two nodes see the same: the same justified checkpoint, the same imported blocks from
    its slot on (with the same states), the same latest vote of every validator. *)
Record same_view (n1 n2 : Node) : Prop := {
  sv_just : db_just (nd_db n1) = db_just (nd_db n2);
  sv_blocks : forall r s, cp_slot (db_just (nd_db n1)) <= s_slot s ->
    (read_state (tab n1) r = Ok (Some s) <-> read_state (tab n2) r = Ok (Some s));
  sv_votes : forall v, fc_known (nd_votes n1) !! v = fc_known (nd_votes n2) !! v }.

(** The head is the one that fork choice finds now. *)
Definition settled (n : Node) : Prop := ghost_head n = Ok (db_head (nd_db n)).

(** A node started from the anchor [a] on an empty database. *)
Definition run_from (E : Env) (a : State) (n : Node) : Prop :=
  exists n0 es, started E a n0 /\ node_run E n0 es n.

(** [n1] imported the chain [bs], which ends in state [s]. *)
Definition imported_chain (E : Env) (gt : N) (vals : list Validator) (n : Node) (s : State) (bs : list Block) : Prop :=
  chain (e_state E) (e_header E) (e_body E) gt vals s bs /\
  exists r, read_state (tab n) r = Ok (Some (with_header s (filled_header (e_state E) s))).
