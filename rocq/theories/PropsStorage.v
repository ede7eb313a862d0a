(** Storage layer: the property theorems C21-C24 and C27.  Statements use the
    operations of Storage.v and the vocabulary of StorageSpec.v. *)
From Verif Require Import StorageExamples.

(** ** C21 the slot index lists exactly the head's ancestors *)

(** After any sequence of head changes to stored blocks and of writes that keep
    headers, the index is exact, and a further head change to any stored block
    below the anchor succeeds and leaves it exact.  It touches nothing else. *)
Theorem C21_index_exact A d0 d1 new l just fin :
  index_exact (db_tab d0) A (db_head d0) ->
  (exists l0, path (db_tab d0) A (db_head d0) l0 /\ descending (db_tab d0) l0) ->
  head_run A d0 d1 ->
  index_exact (db_tab d1) A (db_head d1) /\
  (path (db_tab d1) A new l -> descending (db_tab d1) l ->
   exists d2, apply_checkpoints d1 new just fin = Ok d2 /\ db_head d2 = new /\
     index_exact (db_tab d2) A new /\
     db_just d2 = default (db_just d1) just /\ db_fin d2 = default (db_fin d1) fin /\
     db_safe d2 = db_safe d1 /\ db_time d2 = db_time d1 /\
     db_tab d2 = set_roots (db_tab d1) (t_roots (db_tab d2))).
Proof. exact (C21_runs_pf A d0 d1 new l just fin). Qed.
Print Assumptions C21_index_exact.

(** A freshly initialised database satisfies the premises. *)
Theorem C21_initial hash_state hash_header t anchor body d :
  init_store hash_state hash_header t anchor body = Ok d -> t_roots t = ∅ ->
  index_exact (db_tab d) (db_head d) (db_head d) /\
  path (db_tab d) (db_head d) (db_head d) [db_head d] /\ descending (db_tab d) [db_head d].
Proof. exact (init_index hash_state hash_header t anchor body d). Qed.
Print Assumptions C21_initial.

(** Range reads return the stored signed blocks of the head's chain in the range,
    by ascending slot. *)
Theorem C21_range hash_body t A head l lo hi :
  index_exact t A head -> path t A head l -> descending t l ->
  get_signed_blocks_by_slot_range hash_body t lo hi =
  omap (get_signed_block hash_body t) (filter (fun r => lo <= slot_of t r <= hi) (reverse l)).
Proof. exact (C21_range_pf hash_body t A head l lo hi). Qed.
Print Assumptions C21_range.

(** Slots 1, 2, 1030, 1031, then a switch to the fork block at slot 4. *)
Example C21_example :
  index_exact (db_tab sx_d0) (db_head sx_db) (db_head sx_d0) /\
  head_run (db_head sx_db) sx_d0 sx_d2 /\
  map (fun s => t_roots (db_tab sx_d1) !! s) [0; 1; 2; 4; 1030; 1031] =
    [Some (db_head sx_db); Some (sx_root sx_b1); Some (sx_root sx_b2); None; Some (sx_root sx_b3); Some (sx_root sx_b4)] /\
  map (fun s => t_roots (db_tab sx_d2) !! s) [0; 1; 2; 4; 1030; 1031] =
    [Some (db_head sx_db); Some (sx_root sx_b1); None; Some (sx_root sx_c2); None; None] /\
  get_signed_blocks_by_slot_range i_body (db_tab sx_d2) 1 10 = [mkSB sx_b1.1 71; mkSB sx_c2.1 74].
Proof.
  split; [exact sx_index0|]. split; [exact sx_heads|]. split_and!; vm_compute; reflexivity.
Qed.

(** ** C22 a stored state reads back unchanged *)
Theorem C22_read_back hash_state hash_header hash_body anchor t c w r :
  (forall h h', hash_header h = hash_header h' -> h = h') ->
  s_slot anchor = h_slot (s_header anchor) ->
  state_run hash_state hash_header hash_body anchor t c w ->
  (exists c', get_state t c r = Ok (w !! r, c')) /\ read_state t r = Ok (w !! r) /\
  (has_state t r = true <-> is_Some (w !! r)).
Proof. exact (C22_read_back_pf hash_state hash_header hash_body anchor t c w r). Qed.
Print Assumptions C22_read_back.

(** Storing the post-state of a block whose transition succeeded never fails. *)
Theorem C22_insert_never_fails hash_state hash_header hash_body anchor t c w sb parent c1 post :
  (forall h h', hash_header h = hash_header h' -> h = h') ->
  s_slot anchor = h_slot (s_header anchor) ->
  state_run hash_state hash_header hash_body anchor t c w ->
  let b := sb_block sb in
  let root := block_root hash_header hash_body b in
  has_state t root = false -> get_state t c (b_parent b) = Ok (Some parent, c1) ->
  state_transition hash_state hash_header hash_body parent b = Ok post ->
  exists t2 c2,
    insert_state hash_header (insert_signed_block hash_body t root sb) c1 root (stored_state post b) = Ok (t2, c2).
Proof. exact (fun i => import_ok hash_state hash_header hash_body i anchor t c w sb parent c1 post). Qed.
Print Assumptions C22_insert_never_fails.

(** Five imports on a fork; slot 1031 is stored as a diff over the snapshot of
    slot 1030, slot 4 as a diff over slot 1 over genesis. *)
Example C22_example :
  (forall h h', i_header h = i_header h' -> h = h') /\
  s_slot i_genesis = h_slot (s_header i_genesis) /\
  state_run i_state i_header i_body i_genesis sx_final.1.1 sx_final.1.2 sx_final.2 /\
  sx_final.2 !! sx_root sx_b4 = Some sx_b4.2 /\
  t_states sx_final.1.1 !! sx_root sx_b4 = None /\
  is_Some (t_states sx_final.1.1 !! sx_root sx_b3) /\
  read_state sx_final.1.1 (sx_root sx_c2) = Ok (Some sx_c2.2) /\
  s_slot sx_b4.2 = 1031 /\ s_slot sx_c2.2 = 4.
Proof. split; [exact i_header_inj|]. split; [done|]. split; [exact sx_run|exact sx_reads]. Qed.

(** ** C23 blocks read back unchanged until their proof is pruned *)
Theorem C23_read_back hash_header hash_body t w sb ops :
  (forall h h', hash_header h = hash_header h' -> h = h') ->
  (forall l l', hash_body l = hash_body l' -> l = l') ->
  w = bo_import sb \/ w = bo_pending sb -> untouched (sb_block sb) ops ->
  let got := get_signed_block hash_body (fold_left (block_step hash_header hash_body) (w :: ops) t)
               (block_root hash_header hash_body (sb_block sb)) in
  (~ pruned (b_slot (sb_block sb)) ops -> got = Some sb) /\
  (pruned (b_slot (sb_block sb)) ops ->
     got = if b_slot (sb_block sb) =? 0 then Some (mkSB (sb_block sb) EMPTY_PROOF) else None).
Proof. exact (fun i j => C23_read_back_pf hash_header hash_body i j t w sb ops). Qed.
Print Assumptions C23_read_back.

(** Nothing is returned that was not written. *)
Theorem C23_only_written hash_header hash_body ops r sb :
  (forall h h', hash_header h = hash_header h' -> h = h') ->
  (forall l l', hash_body l = hash_body l' -> l = l') ->
  get_signed_block hash_body (fold_left (block_step hash_header hash_body) ops empty_tables) r = Some sb ->
  exists p, r = block_root hash_header hash_body (sb_block sb) /\ written ops (mkSB (sb_block sb) p) /\
    (sb_proof sb = p \/ (b_slot (sb_block sb) = 0 /\ sb_proof sb = EMPTY_PROOF)).
Proof. exact (fun i j => C23_only_written_pf hash_header hash_body i j ops r sb). Qed.
Print Assumptions C23_only_written.

Example C23_example :
  let b1 := mkSB sx_b1.1 71 in
  let b3 := mkSB sx_b3.1 73 in
  let ops := [bo_pending b3; bo_prune 1500 22000; bo_import (mkSB sx_b2.1 72)] in
  untouched (sb_block b1) ops /\ pruned (b_slot (sb_block b1)) ops /\
  get_signed_block i_body (fold_left (block_step i_header i_body) (bo_import b1 :: ops) empty_tables) (sx_root sx_b1) = None /\
  get_signed_block i_body (fold_left (block_step i_header i_body) (bo_import b1 :: ops) empty_tables) (sx_root sx_b3) = Some b3.
Proof.
  split; [|split; [exists 1500, 22000; split; [set_solver|vm_compute; done]|split; vm_compute; reflexivity]].
  intros o Ho. repeat (apply elem_of_cons in Ho as [->|Ho]; [vm_compute; done|]). inversion Ho.
Qed.

(** ** C24 pruning removes exactly the old, finalized data *)
Theorem C24_prune_proofs t fin tip s r :
  let t' := (prune_old_block_proofs t fin tip).1 in
  (t_proofs t' !! (s, r) = if decide (s + 21600 < tip /\ tip - 21600 <= fin) then None else t_proofs t !! (s, r)) /\
  t_headers t' = t_headers t /\ t_bodies t' = t_bodies t /\ t_states t' = t_states t /\
  t_diffs t' = t_diffs t /\ t_roots t' = t_roots t /\ t_live t' = t_live t.
Proof. exact (C24_proofs_pf t fin tip s r). Qed.
Print Assumptions C24_prune_proofs.

(** So neither a proof at or above the finalized slot nor one of the last 21600
    slots is ever removed. *)
Theorem C24_recent_kept t fin tip s r :
  fin <= s \/ tip <= s + 21600 ->
  t_proofs (prune_old_block_proofs t fin tip).1 !! (s, r) = t_proofs t !! (s, r).
Proof. exact (C24_recent_kept_pf t fin tip s r). Qed.
Print Assumptions C24_recent_kept.

Theorem C24_prune_live t fin s r :
  let t' := prune_live_chain t fin in
  (t_live t' !! (s, r) = if decide (s < fin) then None else t_live t !! (s, r)) /\
  t_headers t' = t_headers t /\ t_bodies t' = t_bodies t /\ t_proofs t' = t_proofs t /\
  t_states t' = t_states t /\ t_diffs t' = t_diffs t /\ t_roots t' = t_roots t.
Proof. exact (C24_live_pf t fin s r). Qed.
Print Assumptions C24_prune_live.

(** The live chain is pruned when, and only when, finalization advances. *)
Theorem C24_prune_when d fin :
  prune_after d (finalization_advanced d (Some fin)) =
  if decide (cp_slot (db_fin d) < cp_slot fin)
  then with_tab d (prune_live_chain (db_tab d) (cp_slot fin)) else d.
Proof. exact (C24_prune_when_pf d fin). Qed.
Print Assumptions C24_prune_when.

Example C24_example :
  let t := set_proofs empty_tables {[ (100, 7) := 1; (400, 8) := 2 ]} in
  let t' := (prune_old_block_proofs t 399 22000).1 in
  t_proofs t' !! (100, 7) = Some 1 /\
  let t'' := (prune_old_block_proofs t 400 22000).1 in
  t_proofs t'' !! (100, 7) = None /\ t_proofs t'' !! (400, 8) = Some 2.
Proof. vm_compute. done. Qed.

(** ** C27 anchor initialisation *)
Theorem C27_accepts_iff hash_state hash_header hash_body t s b :
  (exists d, get_forkchoice_store hash_state hash_header hash_body t s b = Ok d) <->
  anchor_matches hash_state hash_body s b.
Proof. exact (C27_accepts_iff_pf hash_state hash_header hash_body t s b). Qed.
Print Assumptions C27_accepts_iff.

Theorem C27_never_panics hash_state hash_header hash_body t s b :
  get_forkchoice_store hash_state hash_header hash_body t s b <> Panic.
Proof. exact (C27_never_panics_pf hash_state hash_header hash_body t s b). Qed.
Print Assumptions C27_never_panics.

Theorem C27_anchor_store hash_state hash_header hash_body t s b d :
  get_forkchoice_store hash_state hash_header hash_body t s b = Ok d ->
  let root := block_root hash_header hash_body b in
  db_head d = root /\ db_safe d = root /\ db_just d = mkCp root (b_slot b) /\
  db_fin d = mkCp root (b_slot b) /\ db_time d = 0 /\ db_gt d = s_genesis_time s /\
  t_headers (db_tab d) !! root = Some (header_of hash_body b) /\
  read_state (db_tab d) root = Ok (Some (with_header s (header_of hash_body b))) /\
  t_live (db_tab d) !! (b_slot b, root) = Some (b_parent b) /\
  t_roots (db_tab d) !! b_slot b = Some root /\
  ((forall l l', hash_body l = hash_body l' -> l = l') -> get_block hash_body (db_tab d) root = Some b) /\
  (forall r, r <> root -> t_headers (db_tab d) !! r = t_headers t !! r /\
                          t_states (db_tab d) !! r = t_states t !! r).
Proof. exact (C27_anchor_store_pf hash_state hash_header hash_body t s b d). Qed.
Print Assumptions C27_anchor_store.

Example C27_example :
  anchor_matches i_state i_body sx_b3.2 sx_b3.1 /\
  is_ok (get_forkchoice_store i_state i_header i_body empty_tables sx_b3.2 sx_b3.1) = true /\
  is_ok (get_forkchoice_store i_state i_header i_body empty_tables sx_b3.2 sx_b4.1) = false.
Proof. split; [repeat split; try (vm_compute; reflexivity); right; vm_compute; reflexivity|]. vm_compute. done. Qed.
