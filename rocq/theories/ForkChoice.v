(** Model of crates/blockchain/fork_choice/src/lib.rs and of the fork-choice
    vote tracking of crates/storage/src/store.rs.

    A Rust [HashMap] argument is the list of its entries in iteration order (an
    association list with distinct keys); lookups go through the finite map of
    that list.  [None] means that the Rust loop never terminates. *)
From Verif Require Export Types.

(** [HashMap<H256, (u64, H256)>]: root, (slot, parent root). *)
Notation BlockTree := (gmap H256 (N * H256)) (only parsing).
Notation BlockEntries := (list (H256 * (N * H256))) (only parsing).
Notation Votes := (gmap N AttestationData) (only parsing).
Notation VoteEntries := (list (N * AttestationData)) (only parsing).
Notation Weights := (gmap H256 N) (only parsing).

(** fork_choice/src/lib.rs:17-23, the [while let] loop: the roots visited.
    Without a cycle at most [size m] blocks are visited, with a cycle the Rust
    loop does not end: fuel [size m] is exact. *)
Fixpoint walk (fuel : nat) (m : BlockTree) (start_slot : N) (r : H256) : option (list H256) :=
  match m !! r with
  | Some (slot, parent) =>
      if start_slot <? slot then
        match fuel with
        | O => None
        | S f => match walk f m start_slot parent with
                 | Some l => Some (r :: l)
                 | None => None
                 end
        end
      else Some []
  | None => Some []
  end.

(** [*weights.entry(root).or_default() += 1] *)
Definition bump (w : Weights) (r : H256) : Weights := <[r := default 0 (w !! r) + 1]> w.

(** fork_choice/src/lib.rs:16-25, the outer loop, in iteration order. *)
Fixpoint add_weights (m : BlockTree) (start_slot : N) (votes : VoteEntries) (w : Weights)
  : option Weights :=
  match votes with
  | [] => Some w
  | (_, d) :: rest =>
      match walk (size m) m start_slot (cp_root (ad_head d)) with
      | Some l => add_weights m start_slot rest (fold_left bump l w)
      | None => None
      end
  end.

(** fork_choice/src/lib.rs:9-28 *)
Definition compute_block_weights (start_slot : N) (blocks : BlockEntries) (votes : VoteEntries)
  : option Weights :=
  add_weights (list_to_map blocks) start_slot votes ∅.

(** [weights.get(root).copied().unwrap_or(0)] *)
Definition weight (w : Weights) (r : H256) : N := default 0 (w !! r).

(** fork_choice/src/lib.rs:58-68: [children_map.get(h)], the list of children of
    [h] in iteration order.  Simplified: the map is the function of its key. *)
Definition children (blocks : BlockEntries) (w : Weights) (min_score : N) (h : H256) : list H256 :=
  omap (fun e : H256 * (N * H256) =>
    let '(r, (_, parent)) := e in
    if parent =? ZERO then None
    else if (0 <? min_score) && (weight w r <? min_score) then None
    else if parent =? h then Some r else None) blocks.

(** The order of the keys [(weight, root)] (Rust tuple order). *)
Definition key_le (w : Weights) (a b : H256) : bool :=
  (weight w a <? weight w b) || ((weight w a =? weight w b) && (a <=? b)).

(** [Iterator::max_by_key]: the last maximal element. *)
Fixpoint max_key (w : Weights) (best : H256) (l : list H256) : H256 :=
  match l with
  | [] => best
  | r :: l' => max_key w (if key_le w best r then r else best) l'
  end.

(** [Iterator::min_by_key] on the slot: the first minimal element. *)
Fixpoint min_slot (best : H256 * (N * H256)) (l : BlockEntries) : H256 * (N * H256) :=
  match l with
  | [] => best
  | e :: l' => min_slot (if (snd e).1 <? (snd best).1 then e else best) l'
  end.

(** fork_choice/src/lib.rs:70-80, the descent.  A descent longer than the number
    of blocks has met a block twice and goes on forever. *)
Fixpoint descend (fuel : nat) (blocks : BlockEntries) (w : Weights) (min_score : N) (h : H256)
  : option H256 :=
  match children blocks w min_score h with
  | [] => Some h
  | c :: cs =>
      match fuel with
      | O => None
      | S f => descend f blocks w min_score (max_key w c cs)
      end
  end.

(** fork_choice/src/lib.rs:36-82 *)
Definition compute_lmd_ghost_head (start : H256) (blocks : BlockEntries) (votes : VoteEntries)
    (min_score : N) : option (H256 * Weights) :=
  match blocks with
  | [] => Some (start, ∅)
  | e :: es =>
      let start' := if start =? ZERO then (min_slot e es).1 else start in
      match (list_to_map blocks : BlockTree) !! start' with
      | None => Some (start', ∅)
      | Some (start_slot, _) =>
          match compute_block_weights start_slot blocks votes with
          | None => None
          | Some w =>
              match descend (length blocks) blocks w min_score start' with
              | None => None
              | Some h => Some (h, w)
              end
          end
      end
  end.

(** crates/blockchain/src/store.rs:150-171 [update_safe_target]: the threshold
    and the call.  [n] is the validator count of the head state, [votes] the
    pending votes. *)
Definition safe_target_score (n : N) : N := (n * 2 + 2) / 3.
Definition safe_target (n : N) (justified_root : H256) (blocks : BlockEntries)
    (votes : VoteEntries) : option H256 :=
  fst <$> compute_lmd_ghost_head justified_root blocks votes (safe_target_score n).

Section Votes.
  (** [AttestationData::hash_tree_root] *)
  Context (hash_data : AttestationData -> H256).

  (** crates/storage/src/store.rs:1448-1452 *)
  Definition should_replace_vote (existing candidate : AttestationData) : bool :=
    (ad_slot existing <? ad_slot candidate) ||
    ((ad_slot candidate =? ad_slot existing) && (hash_data existing <? hash_data candidate)).

  (** crates/storage/src/store.rs:1454-1465 *)
  Definition record_vote (votes : Votes) (v : N) (d : AttestationData) : Votes :=
    match votes !! v with
    | None => <[v := d]> votes
    | Some e => if should_replace_vote e d then <[v := d]> votes else votes
    end.

  (** The loop [for validator_id in participants { record_vote(...) }]. *)
  Definition record_all (votes : Votes) (vs : list N) (d : AttestationData) : Votes :=
    fold_left (fun m v => record_vote m v d) vs votes.

  (** crates/storage/src/store.rs: [ForkChoice { known_votes, new_votes }] *)
  Record FcVotes := mkFc { fc_known : Votes; fc_new : Votes }.

  (** store.rs:1467-1478 [record_known_attestation_votes] (votes of an imported
      block), also 1554-1565 for one proof *)
  Definition record_known (f : FcVotes) (bits : Bits) (d : AttestationData) : FcVotes :=
    mkFc (record_all (fc_known f) (validator_indices bits) d) (fc_new f).
  (** store.rs:1573-1586, 1589-1601: one proof *)
  Definition record_new (f : FcVotes) (bits : Bits) (d : AttestationData) : FcVotes :=
    mkFc (fc_known f) (record_all (fc_new f) (validator_indices bits) d).
  (** store.rs:1609-1621: [order] is the iteration order of [new_votes.drain()] *)
  Definition promote_with (order : VoteEntries) (f : FcVotes) : FcVotes :=
    mkFc (fold_left (fun m e => record_vote m e.1 e.2) order (fc_known f)) ∅.
  Definition promote (f : FcVotes) : FcVotes := promote_with (map_to_list (fc_new f)) f.
End Votes.
