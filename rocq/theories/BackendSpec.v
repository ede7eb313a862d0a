(** What a storage backend stores. *)
From Verif Require Export Backend.
Local Open Scope N_scope.

(** The value of key [k] in table [t] after a call, when it was [o] before. *)
Definition after_call (t : Table) (k : bytes) (o : option bytes) (c : BatchCall) : option bytes :=
  match c with
  | b_put t' l =>
      fold_left (fun o x => if bool_decide (t' = t /\ x.1 = k) then Some x.2 else o) l o
  | b_delete t' l => if bool_decide (t' = t /\ k ∈ l) then None else o
  | b_range t' from to => if bool_decide (t' = t) && negb (lexb k from) && lexb k to then None else o
  end.
(** The last operation of a committed batch on the key counts. *)
Definition stored (h : list (list BatchCall * bool)) (t : Table) (k : bytes) : option bytes :=
  fold_left (after_call t k) (concat (map fst (List.filter snd h))) None.

(** A listing of the entries whose keys start with [p]: all of them, in key order. *)
Definition listing (val : bytes -> option bytes) (p : bytes) (l : list (bytes * bytes)) : Prop :=
  StronglySorted (fun x y => lex_lt x.1 y.1) l /\
  forall k v, (k, v) ∈ l <-> p `prefix_of` k /\ val k = Some v.

(** Ranges are given in order. *)
Definition range_ordered (c : BatchCall) : Prop :=
  match c with b_range _ from to => lexb to from = false | _ => True end.
Definition ranges_ordered (h : list (list BatchCall * bool)) : Prop :=
  forall cs c, (cs, true) ∈ h -> c ∈ cs -> range_ordered c.

(** Views while batches are committed.  [v_open], [v_read] and [v_close] are a reader's. *)
Inductive ViewEvent :=
| v_open | v_read (t : Table) (k : bytes) | v_close | v_commit (cs : list BatchCall).
(** In memory a view holds the read lock (in_memory.rs:50-53), so that a commit waits:
    the events that can happen and what is read. *)
Inductive mem_views : MemData -> bool -> list ViewEvent -> list (res unit (option bytes)) -> Prop :=
| mv_nil d o : mem_views d o [] []
| mv_open d es rs : mem_views d true es rs -> mem_views d false (v_open :: es) rs
| mv_read d t k es rs : mem_views d true es rs -> mem_views d true (v_read t k :: es) (mem_get d t k :: rs)
| mv_close d es rs : mem_views d false es rs -> mem_views d true (v_close :: es) rs
| mv_commit d cs d' es rs : mem_commit d cs = Ok d' -> mem_views d' false es rs -> mem_views d false (v_commit cs :: es) rs.
(** A RocksDB view is the database itself (rocksdb.rs:67-71, 101-103). *)
Inductive rk_views : RocksData -> bool -> list ViewEvent -> list (res unit (option bytes)) -> Prop :=
| rv_nil d o : rk_views d o [] []
| rv_open d es rs : rk_views d true es rs -> rk_views d false (v_open :: es) rs
| rv_read d t k es rs : rk_views d true es rs -> rk_views d true (v_read t k :: es) (rk_get d t k :: rs)
| rv_close d es rs : rk_views d false es rs -> rk_views d true (v_close :: es) rs
| rv_commit d o cs d' es rs : rk_commit d cs = Ok d' -> rk_views d' o es rs -> rk_views d o (v_commit cs :: es) rs.
(** The view is open through all these events. *)
Definition while_open (es : list ViewEvent) : Prop := Forall (fun e => e <> v_open /\ e <> v_close) es.
