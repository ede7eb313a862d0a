(** Specification vocabulary for the storage layer. *)
From Verif Require Export Storage.

(** The blocks from [r] down to the anchor [A], following parent links of stored
    headers. *)
Inductive path (t : Tables) (A : H256) : H256 -> list H256 -> Prop :=
| path_end h : t_headers t !! A = Some h -> path t A A [A]
| path_step r h l :
    r <> A -> t_headers t !! r = Some h -> path t A (h_parent h) l -> path t A r (r :: l).

(** Every block of the list has a larger slot than the next one. *)
Definition descending (t : Tables) (l : list H256) : Prop :=
  forall i r r' h h', l !! i = Some r -> l !! S i = Some r' ->
    t_headers t !! r = Some h -> t_headers t !! r' = Some h' -> h_slot h' < h_slot h.

(** Slot of a stored block. *)
Definition slot_of (t : Tables) (r : H256) : N :=
  match t_headers t !! r with Some h => h_slot h | None => 0 end.

(** Block [r], at slot [s], is on the chain of [head] (down to the anchor). *)
Definition on_chain_of (t : Tables) (A head : H256) (s : N) (r : H256) : Prop :=
  exists l h, path t A head l /\ r ∈ l /\ t_headers t !! r = Some h /\ h_slot h = s.

(** The slot index lists exactly the chain of [head]. *)
Definition index_exact (t : Tables) (A head : H256) : Prop :=
  forall s r, t_roots t !! s = Some r <-> on_chain_of t A head s r.

(** [t'] keeps every header of [t] and has the same slot index. *)
Definition keeps_headers (t t' : Tables) : Prop :=
  (forall r h, t_headers t !! r = Some h -> t_headers t' !! r = Some h) /\
  t_roots t' = t_roots t.

(** Head changes: the database evolves by head updates to stored blocks and by
    writes that keep headers and the index. *)
Inductive head_run (A : H256) : Db -> Db -> Prop :=
| hr_init d : head_run A d d
| hr_head d d1 d2 new l just fin :
    head_run A d d1 -> path (db_tab d1) A new l -> descending (db_tab d1) l ->
    apply_checkpoints d1 new just fin = Ok d2 -> head_run A d d2
| hr_write d d1 d2 :
    head_run A d d1 -> keeps_headers (db_tab d1) (db_tab d2) -> db_head d2 = db_head d1 ->
    head_run A d d2.

Section Runs.
  Context (hash_state : State -> H256) (hash_header : Header -> H256)
          (hash_body : list AggAtt -> H256).

  (** The state stored for a block: the post-state with the block's state root
      put into its latest header (crates/blockchain/src/store.rs:661-663). *)
  Definition stored_state (post : State) (b : Block) : State :=
    with_header post (set_state_root (s_header post) (b_state_root b)).

  (** The anchor state as stored: its header's state root filled in. *)
  Definition stored_anchor (a : State) : State :=
    with_header a (set_state_root (s_header a)
      (hash_state (with_header a (set_state_root (s_header a) ZERO)))).

  (** Histories of the state tables [t] and the cache [c].  [w] records which
      state was inserted under which root.  Imports read the parent state and
      write the block and its post-state; any number of reads, pending blocks,
      restarts (empty cache), evictions and changes of other tables come between. *)
  Inductive state_run (anchor : State) : Tables -> Cache -> gmap H256 State -> Prop :=
  | sr_init body d :
      init_store hash_state hash_header empty_tables anchor body = Ok d ->
      state_run anchor (db_tab d) [] {[ db_head d := stored_anchor anchor ]}
  | sr_import t c w sb parent c1 post t2 c2 :
      state_run anchor t c w ->
      let b := sb_block sb in
      let root := block_root hash_header hash_body b in
      has_state t root = false ->
      get_state t c (b_parent b) = Ok (Some parent, c1) ->
      state_transition hash_state hash_header hash_body parent b = Ok post ->
      insert_state hash_header (insert_signed_block hash_body t root sb) c1 root (stored_state post b)
        = Ok (t2, c2) ->
      state_run anchor t2 c2 (<[root := stored_state post b]> w)
  | sr_pending t c w sb :
      state_run anchor t c w ->
      state_run anchor
        (insert_pending_block hash_body t (block_root hash_header hash_body (sb_block sb)) sb) c w
  | sr_read t c w r o c' :
      state_run anchor t c w -> get_state t c r = Ok (o, c') -> state_run anchor t c' w
  | sr_restart t c w : state_run anchor t c w -> state_run anchor t [] w
  | sr_evict t c w c' : state_run anchor t c w -> (forall e, e ∈ c' -> e ∈ c) -> state_run anchor t c' w
  | sr_other t c w bodies proofs roots live :
      state_run anchor t c w ->
      state_run anchor
        (mkTab (t_headers t) bodies proofs (t_states t) (t_diffs t) roots live) c w.

  (** Writes of blocks (imported or pending) and prunes, with the ghost record of
      the last proof written for each block root. *)
  Inductive block_op :=
  | bo_import (sb : SignedBlock)
  | bo_pending (sb : SignedBlock)
  | bo_prune (fin tip : N).
  Definition block_step (t : Tables) (o : block_op) : Tables :=
    match o with
    | bo_import sb => insert_signed_block hash_body t (block_root hash_header hash_body (sb_block sb)) sb
    | bo_pending sb => insert_pending_block hash_body t (block_root hash_header hash_body (sb_block sb)) sb
    | bo_prune fin tip => (prune_old_block_proofs t fin tip).1
    end.

  (** After the write of [b] with proof [p] nothing in [ops] writes that block
      again. *)
  Definition untouched (b : Block) (ops : list block_op) : Prop :=
    forall o, o ∈ ops -> match o with
      | bo_import sb | bo_pending sb => sb_block sb <> b
      | bo_prune _ _ => True
      end.
  (** Some prune in [ops] covers slot [s]. *)
  Definition pruned (s : N) (ops : list block_op) : Prop :=
    exists fin tip, bo_prune fin tip ∈ ops /\ s + 21600 < tip /\ tip - 21600 <= fin.
End Runs.

(** A state with the state root of its latest header cleared: this is what a
    block's state root commits to. *)
Definition zeroed (s : State) : State := with_header s (set_state_root (s_header s) ZERO).

(** An anchor state and block belong together: the state's latest header is the
    block's header, and every non-zero state root matches the state. *)
Definition anchor_matches (hash_state : State -> H256) (hash_body : list AggAtt -> H256)
    (s : State) (b : Block) : Prop :=
  h_slot (s_header s) = b_slot b /\ h_proposer (s_header s) = b_proposer b /\
  h_parent (s_header s) = b_parent b /\ h_body_root (s_header s) = hash_body (b_atts b) /\
  (h_state_root (s_header s) = ZERO \/ h_state_root (s_header s) = hash_state (zeroed s)) /\
  b_state_root b = hash_state (zeroed s).

(** Some operation of the list writes this signed block. *)
Definition written (ops : list block_op) (sb : SignedBlock) : Prop :=
  bo_import sb ∈ ops \/ bo_pending sb ∈ ops.
