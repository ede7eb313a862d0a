(** What the logged tree should show. *)
From Verif Require Export TreeLog NodeSpec.
Local Open Scope N_scope.

(** [p] is the parent of [r], and both are in the map. *)
Definition child_in (blocks : gmap H256 (N * H256)) (p r : H256) : Prop :=
  p <> ZERO /\ is_Some (blocks !! p) /\ exists s, blocks !! r = Some (s, p).
Definition slot_in (blocks : gmap H256 (N * H256)) (r : H256) : N := default 0 (fst <$> blocks !! r).
(** How far right a block stands below [root]: one column per block and one more per run of
    missing slots. *)
Inductive column (blocks : gmap H256 (N * H256)) (root : H256) : H256 -> N -> Prop :=
| col_root : is_Some (blocks !! root) -> column blocks root root 1
| col_child p r n : column blocks root p n -> child_in blocks p r ->
    column blocks root r (n + 1 + if slot_in blocks p + 1 <? slot_in blocks r then 1 else 0).
(** A block of the map whose parent is not in it. *)
Definition top_block (blocks : gmap H256 (N * H256)) (r : H256) : Prop :=
  is_Some (blocks !! r) /\ forall p, ~ child_in blocks p r.
(** The blocks of the text, in order. *)
Definition shown (out : list Piece) : list (H256 * N) :=
  omap (fun x => match x with PNode r s => Some (r, s) | _ => None end) out.

(** Wherever the head marker stands, the head's block stands directly before it, or
    directly before the dots before it. *)
Definition head_marks_ok (head : H256) (out : list Piece) : Prop :=
  forall i, out !! i = Some PHead ->
    exists j s, out !! j = Some (PNode head s) /\ (i = S j \/ i = S (S j) /\ out !! S j = Some PDots).
(** The head's block stands in the text, directly followed by the marker. *)
Definition head_marked (head : H256) (out : list Piece) : Prop :=
  exists j s, out !! j = Some (PNode head s) /\ out !! S j = Some PHead.

(** The text shows blocks of the map below [root] with their slots, none twice; the head
    marker stands at the head only; [root] is shown, and so are the children of every block
    left of the column limit. *)
Definition tree_ok (blocks : gmap H256 (N * H256)) (head root : H256) (out : list Piece) : Prop :=
  (forall r s, (r, s) ∈ shown out -> (exists n, column blocks root r n) /\ fst <$> blocks !! r = Some s) /\
  NoDup (map fst (shown out)) /\ head_marks_ok head out /\
  root ∈ map fst (shown out) /\
  (forall p n r, column blocks root p n -> n < MAX_DISPLAY_DEPTH -> child_in blocks p r -> r ∈ map fst (shown out)).

(** Of two blocks with the same parent, the one shown first is the heavier, or as heavy
    with the larger root. *)
Definition branches_sorted (blocks : gmap H256 (N * H256)) (weights : gmap H256 N) (out : list Piece) : Prop :=
  forall i j a b p, (i < j)%nat -> map fst (shown out) !! i = Some a -> map fst (shown out) !! j = Some b ->
    child_in blocks p a -> child_in blocks p b ->
    default 0 (weights !! b) < default 0 (weights !! a) \/ default 0 (weights !! a) = default 0 (weights !! b) /\ b <= a.
