(** Vocabulary for requests served while the node works. *)
From Verif Require Export Conc.
Local Open Scope N_scope.

(** [watched E n0 l n]: a node that started as [n0] is now [n], and its database went
    through the contents [l]. *)
Inductive watched (E : Env) (n0 : Node) : list Db -> Node -> Prop :=
| wt_start : watched E n0 [nd_db n0] n0
| wt_event l n e n' :
    watched E n0 l n -> node_step E n e = Ok n' -> watched E n0 (l ++ commits E n e) n'.

(** [ds] are read one after the other while the database goes through [l], from its
    [i]th content on. *)
Inductive reads_from (l : list Db) : nat -> list Db -> Prop :=
| rf_nil i : reads_from l i []
| rf_cons i j d ds :
    (i <= j)%nat -> l !! j = Some d -> reads_from l j ds -> reads_from l i (d :: ds).
Definition reads (l : list Db) (ds : list Db) : Prop := reads_from l 0 ds.

(** The reads of a range request, in order. *)
Definition range_dbs (ds : list (Db * Db * Db * Db)) : list Db :=
  concat (map (fun x => let '(d0, d1, d2, d3) := x in [d0; d1; d2; d3]) ds).

(** The node was started from a valid anchor and went through [l]. *)
Definition history (E : Env) (gt : N) (vals : list Validator) (l : list Db) (n : Node) : Prop :=
  exists a n0, valid_anchor E gt vals a /\ started E a n0 /\ watched E n0 l n.

(** Root of a signed block. *)
Definition sb_root (E : Env) (sb : SignedBlock) : H256 := block_root (e_header E) (e_body E) (sb_block sb).
