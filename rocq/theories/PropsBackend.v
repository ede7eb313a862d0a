(** C73: what the storage backends store and list. *)
From Coq Require Import Ascii String.
From Verif Require Import BackendProofs.
Local Open Scope N_scope.

(** C73.  In memory: every batch of every history is taken, a key reads what the last
    operation of a committed batch left, and a prefix lists all entries under it in key order. *)
Theorem C73_memory : forall h, exists d, mem_run mem_new h = Ok d /\
  (forall t k, mem_get d t k = Ok (stored h t k)) /\
  (forall t p, exists l, mem_iter d t p = Ok l /\ listing (stored h t) p l).
Proof. exact memory_pf. Qed.
Print Assumptions C73_memory.

(** C73.  RocksDB does the same when ranges are given in order. *)
Theorem C73_rocks : forall h, ranges_ordered h -> exists r, rk_run rk_new h = Ok r /\
  (forall t k, rk_get r t k = Ok (stored h t k)) /\
  (forall t p, exists l, rk_iter r t p = Ok l /\ listing (stored h t) p l).
Proof. exact rocks_pf. Qed.
Print Assumptions C73_rocks.

(** C73.  So nobody can tell the backends apart by what they read after a history. *)
Theorem C73_same : forall h, ranges_ordered h -> exists d r, mem_run mem_new h = Ok d /\ rk_run rk_new h = Ok r /\
  (forall t k, mem_get d t k = rk_get r t k) /\ (forall t p, mem_iter d t p = rk_iter r t p).
Proof. exact same_pf. Qed.
Print Assumptions C73_same.

(** C73.  In memory an open view sees one state: no batch is committed while it is open. *)
Theorem C73_view_partial : forall d es rs, mem_views d true es rs -> while_open es ->
  (forall cs, v_commit cs ∉ es) /\
  rs = omap (fun e => match e with v_read t k => Some (mem_get d t k) | _ => None end) es.
Proof. exact mem_view_pf. Qed.
Print Assumptions C73_view_partial.

(** C73.  With RocksDB it does not: two reads of one key through one view can differ. *)
Theorem C73_refuted : exists es t k a b, while_open es /\ es = [v_read t k; v_commit [b_put t [(k, [7])]]; v_read t k] /\
  rk_views rk_new false (v_open :: es ++ [v_close]) [Ok a; Ok b] /\ a <> b.
Proof. exact rk_view_pf. Qed.
Print Assumptions C73_refuted.

(** C73.  A range whose end comes before its start is nothing in memory and an error in RocksDB. *)
Theorem C73_range_refuted : exists h d, mem_run mem_new h = Ok d /\ rk_run rk_new h = Err tt.
Proof. exact range_pf. Qed.
Print Assumptions C73_range_refuted.

(** *** Examples *)
(** A history with two tables, a dropped batch, a key written twice, a range and a delete. *)
Definition x_hist : list (list BatchCall * bool) :=
  [([b_put LiveChain [([1; 2], [10]); ([1; 1], [11]); ([2], [12]); ([1; 2], [13])]; b_put States [([1; 5], [14])]], true);
   ([b_delete LiveChain [[2]]], false);
   ([b_put LiveChain [([1], [15]); ([3], [16])]; b_range LiveChain [1; 1] [1; 2]; b_delete LiveChain [[9]; [3]]], true)].
Example x_hist_ordered : ranges_ordered x_hist.
Proof.
  intros cs c Hin Hc. unfold x_hist in Hin. rewrite !elem_of_cons, elem_of_nil in Hin.
  destruct Hin as [[= ->]|[Hin|[[= ->]|[]]]]; [|done|]; rewrite !elem_of_cons, elem_of_nil in Hc;
    decompose [or] Hc; subst; done.
Qed.
Example x_hist_mem : (let! d := mem_run mem_new x_hist in mem_iter d LiveChain [1]) = Ok [([1], [15]); ([1; 2], [13])].
Proof. vm_compute. reflexivity. Qed.
Example x_hist_rocks : (let! d := rk_run rk_new x_hist in rk_iter d LiveChain [1]) = Ok [([1], [15]); ([1; 2], [13])].
Proof. vm_compute. reflexivity. Qed.
Example x_hist_all : (let! d := rk_run rk_new x_hist in rk_iter d LiveChain []) = Ok [([1], [15]); ([1; 2], [13]); ([2], [12])].
Proof. vm_compute. reflexivity. Qed.
Example x_hist_states : (let! d := mem_run mem_new x_hist in mem_get d States [1; 5]) = Ok (Some [14]).
Proof. vm_compute. reflexivity. Qed.
Example x_view : mem_views mem_new true [v_read States [1]; v_read States [2]] [Ok None; Ok None].
Proof.
  assert (forall k, mem_get mem_new States k = Ok None) as E by (intros k; unfold mem_get; by rewrite mem_new_some).
  rewrite <- (E [1]) at 1. rewrite <- (E [2]). do 3 constructor.
Qed.
