(** The fork choice tree written to the log at the end of every slot.
    Models crates/blockchain/src/fork_choice_tree.rs.  Simplified: the text is a list of
    its pieces; the three header lines are left out (they only print their arguments). *)
From Verif Require Export Node.
Local Open Scope N_scope.

(** Pieces of the text: a block [root(slot)], a mark for missing slots, [...], the head
    marker, "n branches", a leaf's weight, the connector of a branch with the indentation
    before it ([true]: the last branch of its fork), an end of line, "(empty)". *)
Inductive Piece :=
| PNode (root : H256) (slot : N)
| PGap (missing : N)
| PDots
| PHead
| PBranches (n : N)
| PWeight (w : N)
| PBranch (indent : list bool) (is_last : bool)
| PEol
| PEmpty.

(** fork_choice_tree.rs:7 *)
Definition MAX_DISPLAY_DEPTH : N := 20.

(** fork_choice_tree.rs:228-240: the piece and how much deeper the line gets *)
Definition render_gap (prev_slot : option N) (slot : N) : list Piece * N :=
  match prev_slot with
  | None => ([], 0)
  | Some ps => let gap := slot - ps - 1 in if 1 <=? gap then ([PGap gap], 1) else ([], 0)
  end.

Section Tree.
  Context (blocks : gmap H256 (N * H256)) (weights : gmap H256 N) (head : H256).

  (** fork_choice_tree.rs:52-58: the parent is in the map and not zero *)
  Definition has_parent (b : N * H256) : bool := negb (b.2 =? ZERO) && bool_decide (is_Some (blocks !! b.2)).
  (** fork_choice_tree.rs:60-67: heavier first, then the larger root *)
  Definition shown_before (a b : H256) : Prop :=
    let wa := default 0 (weights !! a) in
    let wb := default 0 (weights !! b) in
    wb < wa \/ (wa = wb /\ b <= a).
  Global Instance shown_before_dec a b : Decision (shown_before a b).
  Proof. unfold shown_before. apply _. Defined.
  Definition children (p : H256) : list H256 :=
    merge_sort shown_before
      (map fst (filter (fun e : H256 * (N * H256) => has_parent e.2 = true /\ e.2.2 = p) (map_to_list blocks))).

  (** fork_choice_tree.rs:218-226: a block without parent in the map; of several, one with
      the smallest slot, the first in the order [it] in which the map is iterated *)
  Definition find_tree_root (it : list (H256 * (N * H256))) : res unit H256 :=
    match filter (fun e => has_parent e.2 = false) it with
    | [] => Panic
    | e :: l => Ok (fold_left (fun m x => if x.2.1 <? m.2.1 then x else m) l e).1
    end.

  (** fork_choice_tree.rs:107-142: the text, the last block and the depth; [Err]: the loop
      needs more than [fuel] rounds *)
  Fixpoint render_trunk (fuel : nat) (current : H256) (prev_slot : option N) (depth : N) : res unit (list Piece * H256 * N) :=
    match fuel with
    | O => Err tt
    | S f =>
        match blocks !! current with
        | None => Panic
        | Some (slot, _) =>
            let '(g, d) := render_gap prev_slot slot in
            let depth := depth + d + 1 in
            let out := g ++ [PNode current slot] in
            if MAX_DISPLAY_DEPTH <=? depth then Ok (out ++ [PDots], current, depth)
            else match children current with
                 | [c] => let! x := render_trunk f c (Some slot) depth in
                          Ok (out ++ x.1.1, x.1.2, x.2)
                 | _ => Ok (out, current, depth)
                 end
        end
    end.

  (** fork_choice_tree.rs:170-176 *)
  Definition parent_slot (c : H256) : option N := b ← blocks !! c; fst <$> blocks !! (b.2 : H256).
  (** fork_choice_tree.rs:144-158: one line per branch *)
  Fixpoint each_branch (line : H256 -> bool -> res unit (list Piece)) (indent : list bool) (cs : list H256)
    : res unit (list Piece) :=
    match cs with
    | [] => Ok []
    | c :: cs' =>
        let is_last := match cs' with [] => true | _ => false end in
        let! x := line c is_last in
        let! y := each_branch line indent cs' in
        Ok (PBranch indent is_last :: x ++ y)
    end.
  (** fork_choice_tree.rs:160-215 [render_branch_line] from the block [current] on, the
      loop and the recursion in one; the connector's continuation is in [indent] already *)
  Fixpoint render_line (fuel : nat) (current : H256) (prev_slot : option N) (indent : list bool) (depth : N)
    : res unit (list Piece) :=
    match fuel with
    | O => Err tt
    | S f =>
        match blocks !! current with
        | None => Panic
        | Some (slot, _) =>
            let '(g, d) := render_gap prev_slot slot in
            let depth := depth + d + 1 in
            let out := g ++ [PNode current slot] in
            let star := if current =? head then [PHead] else [] in
            if MAX_DISPLAY_DEPTH <=? depth then Ok (out ++ [PDots; PEol])
            else match children current with
                 | [] => Ok (out ++ star ++ [PWeight (default 0 (weights !! current)); PEol])
                 | [c] => let! x := render_line f c (Some slot) indent depth in Ok (out ++ star ++ x)
                 | cs => let! x := each_branch (fun c is_last => render_line f c (parent_slot c) (indent ++ [is_last]) depth) indent cs in
                         Ok (out ++ star ++ [PBranches (lenN cs); PEol] ++ x)
                 end
        end
    end.
  (** A line shows at least one level per round. *)
  Definition line_fuel : nat := N.to_nat MAX_DISPLAY_DEPTH.

  (** fork_choice_tree.rs:46-96 *)
  Definition format_fork_choice_tree (it : list (H256 * (N * H256))) : res unit (list Piece) :=
    if bool_decide (blocks = ∅) then Ok [PEmpty]
    else
      let! tree_root := find_tree_root it in
      let! t := render_trunk line_fuel tree_root None 0 in
      let '(out, trunk_tip, trunk_depth) := t in
      let cs := children trunk_tip in
      if 1 <? lenN cs then
        let! x := each_branch (fun c is_last => render_line line_fuel c (parent_slot c) [is_last] trunk_depth) [] cs in
        Ok (out ++ [PBranches (lenN cs); PEol] ++ x)
      else Ok (out ++ (if trunk_tip =? head then [PHead; PEol] else [PEol])).
End Tree.
