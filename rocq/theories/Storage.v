(** Model of the persistent part of crates/storage/src/store.rs and of
    crates/storage/src/state_diff.rs.

    A table is a finite map from decoded keys to decoded values; that the byte
    keys are injective and sort by slot is C20.  A write batch is committed
    atomically, so an operation that commits one batch is one new database.
    [Panic] stands for a panic and for a loop that never ends. *)
From Verif Require Export STF.

(** crates/common/types/src/block.rs [SignedBlock].  The merged proof is opaque;
    0 is the empty proof ([MultiMessageAggregate::default()]). *)
Record SignedBlock := mkSB { sb_block : Block; sb_proof : N }.
Global Instance SignedBlock_eqdec : EqDecision SignedBlock.
Proof. solve_decision. Defined.
Definition EMPTY_PROOF : N := 0.

(** state_diff.rs:29-45 *)
Record Diff := mkDiff {
  df_base : H256;
  df_slot : N;
  df_justified : Checkpoint;
  df_finalized : Checkpoint;
  df_jslots : list bool;
  df_jroots : list H256;
  df_jvals : list bool }.

(** crates/storage/src/api/tables.rs: the tables other than [Metadata].
    [BlockProof] and [LiveChain] are keyed by slot and root, [BlockRoots] by
    slot, the others by block root. *)
Record Tables := mkTab {
  t_headers : gmap H256 Header;
  t_bodies : gmap H256 (list AggAtt);
  t_proofs : gmap (N * H256) N;
  t_states : gmap H256 State;
  t_diffs : gmap H256 Diff;
  t_roots : gmap N H256;
  t_live : gmap (N * H256) H256 }.
Definition empty_tables : Tables := mkTab ∅ ∅ ∅ ∅ ∅ ∅ ∅.

(** An initialised database: the [Metadata] entries and the tables.  [db_gt] is
    the genesis time of [KEY_CONFIG]. *)
Record Db := mkDb {
  db_time : N;
  db_gt : N;
  db_head : H256;
  db_safe : H256;
  db_just : Checkpoint;
  db_fin : Checkpoint;
  db_tab : Tables }.

Definition set_headers t x := mkTab x (t_bodies t) (t_proofs t) (t_states t) (t_diffs t) (t_roots t) (t_live t).
Definition set_bodies t x := mkTab (t_headers t) x (t_proofs t) (t_states t) (t_diffs t) (t_roots t) (t_live t).
Definition set_proofs t x := mkTab (t_headers t) (t_bodies t) x (t_states t) (t_diffs t) (t_roots t) (t_live t).
Definition set_states t x := mkTab (t_headers t) (t_bodies t) (t_proofs t) x (t_diffs t) (t_roots t) (t_live t).
Definition set_diffs t x := mkTab (t_headers t) (t_bodies t) (t_proofs t) (t_states t) x (t_roots t) (t_live t).
Definition set_roots t x := mkTab (t_headers t) (t_bodies t) (t_proofs t) (t_states t) (t_diffs t) x (t_live t).
Definition set_live t x := mkTab (t_headers t) (t_bodies t) (t_proofs t) (t_states t) (t_diffs t) (t_roots t) x.
Definition with_tab d t := mkDb (db_time d) (db_gt d) (db_head d) (db_safe d) (db_just d) (db_fin d) t.

(** crates/storage/src/store.rs [set_time], [set_safe_target] (one commit each) *)
Definition set_time (d : Db) (t : N) : Db :=
  mkDb t (db_gt d) (db_head d) (db_safe d) (db_just d) (db_fin d) (db_tab d).
Definition set_safe_target (d : Db) (r : H256) : Db :=
  mkDb (db_time d) (db_gt d) (db_head d) r (db_just d) (db_fin d) (db_tab d).

(** store.rs:1146-1152 *)
Definition get_header (t : Tables) (r : H256) : option Header := t_headers t !! r.

(** crates/common/types/src/block.rs:227-242 *)
Definition from_header_and_body (h : Header) (atts : list AggAtt) : Block :=
  mkBlock (h_slot h) (h_proposer h) (h_parent h) (h_state_root h) atts.

(** store.rs: SNAPSHOT_ANCHOR_INTERVAL, STATE_CACHE_CAPACITY, BLOCK_PROOF_PRUNING_RANGE *)
Definition SNAPSHOT_ANCHOR_INTERVAL : N := 1024.
Definition STATE_CACHE_CAPACITY : nat := 32.
Definition BLOCK_PROOF_PRUNING_RANGE : N := 21600.

(** ** state_diff.rs *)
Section Diff.
  Context (hash_header : Header -> H256).

  (** state_diff.rs:158-184; which error is returned is dropped. *)
  Definition validate_history_append (hbh : list H256) (base_len : nat) (base_root : H256)
      (slot_gap : N) : bool :=
    if (length hbh <? base_len)%nat then false
    else
      let appended := drop base_len hbh in
      if negb (lenN appended =? slot_gap) then false
      else match appended with
           | r :: rest => (r =? base_root) && forallb (fun h => h =? ZERO) rest
           | [] => false
           end.

  (** state_diff.rs:119-150.  [slot - pre_state.slot] underflows (panics in debug
      builds) if the slot goes backwards; the caller [expect]s success. *)
  Definition diff_from_states (pre post : State) : res unit Diff :=
    let base_root := hash_header (s_header pre) in
    if s_slot post <? s_slot pre then Panic
    else if validate_history_append (s_hist post) (length (s_hist pre)) base_root
              (s_slot post - s_slot pre)
    then Ok (mkDiff base_root (s_slot post) (s_justified post) (s_finalized post)
               (s_jslots post) (s_jroots post) (s_jvals post))
    else Err tt.

  (** state_diff.rs:209-217: the replayed history. *)
  Fixpoint replay_history (hbh : list H256) (prev_slot : N) (diffs : list Diff)
    : res unit (list H256) :=
    match diffs with
    | [] => Ok hbh
    | d :: rest =>
        if df_slot d <? prev_slot + 1 then Panic
        else replay_history
               (hbh ++ df_base d :: replicate (N.to_nat (df_slot d - prev_slot - 1)) ZERO)
               (df_slot d) rest
    end.

  (** state_diff.rs:198-234.  [diffs] from the snapshot's child to the target. *)
  Definition reconstruct (snapshot : State) (diffs : list Diff) (header : Header) : res unit State :=
    match last diffs with
    | None => Panic
    | Some target =>
        let! hbh := replay_history (s_hist snapshot) (s_slot snapshot) diffs in
        if HISTORICAL_ROOTS_LIMIT <? lenN hbh then Panic
        else Ok (mkState (s_genesis_time snapshot) (df_slot target) header (df_justified target)
                   (df_finalized target) hbh (df_jslots target) (s_validators snapshot)
                   (df_jroots target) (df_jvals target))
    end.
End Diff.

(** store.rs:1349-1363, the walk of [reconstruct_state]: snapshot and diffs from
    the snapshot's child to [cursor].  Without a cycle of [base_root] pointers at
    most [size diffs] rows are read. *)
Fixpoint collect_diffs (fuel : nat) (t : Tables) (cursor : H256) (acc : list Diff)
  : res unit (option (State * list Diff)) :=
  match t_states t !! cursor with
  | Some s => Ok (Some (s, acc))
  | None =>
      match t_diffs t !! cursor with
      | None => Ok None
      | Some d =>
          match fuel with
          | O => Panic
          | S f => collect_diffs f t (df_base d) (d :: acc)
          end
      end
  end.

(** store.rs:1347-1380 *)
Definition reconstruct_state (t : Tables) (root : H256) : res unit (option State) :=
  let! x := collect_diffs (size (t_diffs t)) t root [] in
  match x with
  | None => Ok None
  | Some (snapshot, diffs) =>
      match get_header t root with
      | None => Ok None
      | Some h => let! s := reconstruct snapshot diffs h in Ok (Some s)
      end
  end.

(** store.rs:1322-1335 without the cache *)
Definition read_state (t : Tables) (root : H256) : res unit (option State) :=
  match t_states t !! root with
  | Some s => Ok (Some s)
  | None => reconstruct_state t root
  end.

(** store.rs:1385-1391 *)
Definition has_state (t : Tables) (root : H256) : bool :=
  bool_decide (is_Some (t_states t !! root)) || bool_decide (is_Some (t_diffs t !! root)).

(** The LRU cache, most recently used entry first ([lru] crate). *)
Notation Cache := (list (H256 * State)) (only parsing).
Definition cache_find (c : Cache) (r : H256) : option State :=
  snd <$> find (fun e : H256 * State => e.1 =? r) c.
Definition cache_drop (c : Cache) (r : H256) : Cache :=
  List.filter (fun e : H256 * State => negb (e.1 =? r)) c.
Definition cache_put (c : Cache) (r : H256) (s : State) : Cache :=
  take STATE_CACHE_CAPACITY ((r, s) :: cache_drop c r).

(** store.rs:1316-1338 *)
Definition get_state (t : Tables) (c : Cache) (root : H256) : res unit (option State * Cache) :=
  match cache_find c root with
  | Some s => Ok (Some s, (root, s) :: cache_drop c root)
  | None =>
      let! x := read_state t root in
      match x with
      | Some s => Ok (Some s, cache_put c root s)
      | None => Ok (None, c)
      end
  end.

Section Storage.
  Context (hash_state : State -> H256) (hash_header : Header -> H256)
          (hash_body : list AggAtt -> H256).

  Definition EMPTY_BODY_ROOT : H256 := hash_body [].

  (** store.rs:1744-1778 *)
  Definition write_signed_block (t : Tables) (root : H256) (sb : SignedBlock) : Tables :=
    let h := header_of hash_body (sb_block sb) in
    let t1 := set_headers t (<[root := h]> (t_headers t)) in
    let t2 := if h_body_root h =? EMPTY_BODY_ROOT then t1
              else set_bodies t1 (<[root := b_atts (sb_block sb)]> (t_bodies t1)) in
    set_proofs t2 (<[(h_slot h, root) := sb_proof sb]> (t_proofs t2)).

  (** store.rs:1165-1174 *)
  Definition insert_pending_block (t : Tables) (root : H256) (sb : SignedBlock) : Tables :=
    write_signed_block t root sb.

  (** store.rs:1183-1202, the database part (the votes are in the node model) *)
  Definition insert_signed_block (t : Tables) (root : H256) (sb : SignedBlock) : Tables :=
    let t1 := write_signed_block t root sb in
    set_live t1 (<[(b_slot (sb_block sb), root) := b_parent (sb_block sb)]> (t_live t1)).

  (** store.rs:1208-1228 *)
  Definition get_block (t : Tables) (root : H256) : option Block :=
    match t_headers t !! root with
    | None => None
    | Some h =>
        if h_body_root h =? EMPTY_BODY_ROOT then Some (from_header_and_body h [])
        else match t_bodies t !! root with
             | None => None
             | Some body => Some (from_header_and_body h body)
             end
    end.

  (** store.rs:1247-1279 [get_signed_block] *)
  Definition get_signed_block (t : Tables) (root : H256) : option SignedBlock :=
    match t_headers t !! root with
    | None => None
    | Some h =>
        match (if h_body_root h =? EMPTY_BODY_ROOT then Some [] else t_bodies t !! root) with
        | None => None
        | Some body =>
            match t_proofs t !! (h_slot h, root) with
            | Some p => Some (mkSB (from_header_and_body h body) p)
            | None => if h_slot h =? 0
                      then Some (mkSB (from_header_and_body h body) EMPTY_PROOF)
                      else None
            end
        end
    end.

  (** store.rs:1286-1310 [get_signed_blocks_by_slot_range] from [slot], [n] slots *)
  Fixpoint blocks_from (n : nat) (slot : N) (t : Tables) : list SignedBlock :=
    match n with
    | O => []
    | S n' =>
        match t_roots t !! slot with
        | None => blocks_from n' (slot + 1) t
        | Some r =>
            match get_signed_block t r with
            | Some b => b :: blocks_from n' (slot + 1) t
            | None => blocks_from n' (slot + 1) t
            end
        end
    end.
  Definition get_signed_blocks_by_slot_range (t : Tables) (start_slot end_slot : N)
    : list SignedBlock :=
    blocks_from (N.to_nat (end_slot + 1 - start_slot)) start_slot t.

  (** store.rs:1413-1445: tables and cache.  A state is inserted only after its
      parent's: otherwise the [unwrap] panics. *)
  Definition insert_state (t : Tables) (c : Cache) (root : H256) (s : State)
    : res unit (Tables * Cache) :=
    let! pc := get_state t c (h_parent (s_header s)) in
    match pc with
    | (None, _) => Panic
    | (Some parent, c1) =>
        let is_anchor := s_slot parent / SNAPSHOT_ANCHOR_INTERVAL <? s_slot s / SNAPSHOT_ANCHOR_INTERVAL in
        let c2 := cache_put c1 root s in
        match diff_from_states hash_header parent s with
        | Ok d =>
            let t1 := set_diffs t (<[root := d]> (t_diffs t)) in
            Ok (if is_anchor then set_states t1 (<[root := s]> (t_states t1)) else t1, c2)
        | _ => Panic
        end
    end.

  (** store.rs:961-994: slot keys to delete and (slot, root) entries to put.  The
      loop ends after at most as many steps as there are blocks below the two
      heads; with a cycle of parents it does not end. *)
  Fixpoint index_changes (fuel : nat) (t : Tables) (old new : H256) (oh nh : Header)
      (dels : list N) (puts : list (N * H256)) : res unit (list N * list (N * H256)) :=
    if old =? new then Ok (dels, puts)
    else
      match fuel with
      | O => Panic
      | S f =>
          if h_slot oh <? h_slot nh then
            match get_header t (h_parent nh) with
            | None => Err tt
            | Some nh' => index_changes f t old (h_parent nh) oh nh' dels (puts ++ [(h_slot nh, new)])
            end
          else
            match get_header t (h_parent oh) with
            | None => Err tt
            | Some oh' => index_changes f t (h_parent oh) new oh' nh (dels ++ [h_slot oh]) puts
            end
      end.
  Definition block_root_index_changes (t : Tables) (old new : H256)
    : res unit (list N * list (N * H256)) :=
    match get_header t old, get_header t new with
    | Some oh, Some nh => index_changes (2 * size (t_headers t)) t old new oh nh [] []
    | _, _ => Err tt
    end.

  (** store.rs:1047-1075: the keys are visited in slot order, so stopping at the
      first slot not below [fin] removes exactly the entries below it (C20). *)
  Definition prune_live_chain (t : Tables) (fin : N) : Tables :=
    set_live t (filter (fun e : N * H256 * H256 => ~ (e.1.1 < fin)) (t_live t)).

  (** store.rs:874-899: the single commit of [update_checkpoints]. *)
  Definition apply_checkpoints (d : Db) (head : H256) (just fin : option Checkpoint) : res unit Db :=
    let t := db_tab d in
    let! ch := block_root_index_changes t (db_head d) head in
    let '(dels, puts) := ch in
    let roots1 := fold_left (fun m k => delete k m) dels (t_roots t) in
    let roots2 := fold_left (fun m (e : N * H256) => <[e.1 := e.2]> m) puts roots1 in
    Ok (mkDb (db_time d) (db_gt d) head (db_safe d) (default (db_just d) just)
          (default (db_fin d) fin) (set_roots t roots2)).

  (** store.rs:901-923: pruning after the commit, a second commit.  The pools are
      pruned in the node model. *)
  Definition finalization_advanced (d : Db) (fin : option Checkpoint) : option N :=
    match fin with
    | Some f => if cp_slot (db_fin d) <? cp_slot f then Some (cp_slot f) else None
    | None => None
    end.
  Definition prune_after (d : Db) (adv : option N) : Db :=
    match adv with
    | Some f => with_tab d (prune_live_chain (db_tab d) f)
    | None => d
    end.

  (** store.rs:1115-1143 *)
  Definition prune_old_block_proofs (t : Tables) (fin tip : N) : Tables * N :=
    let cutoff := tip - BLOCK_PROOF_PRUNING_RANGE in
    if (fin <? cutoff) || (cutoff =? 0) then (t, 0)
    else (set_proofs t (filter (fun e : N * H256 * N => ~ (e.1.1 < cutoff)) (t_proofs t)), cutoff).

  (** store.rs:933-950.  A head without header panics. *)
  Definition prune_old_data (d : Db) : res unit Db :=
    match get_header (db_tab d) (db_head d) with
    | None => Panic
    | Some h => Ok (with_tab d (prune_old_block_proofs (db_tab d) (cp_slot (db_fin d)) (h_slot h)).1)
    end.

  (** store.rs:675-782, writing over whatever tables [t] the backend holds. *)
  Definition init_store (t : Tables) (anchor : State) (body : option (list AggAtt)) : res unit Db :=
    let original := h_state_root (s_header anchor) in
    let zeroed := with_header anchor (set_state_root (s_header anchor) ZERO) in
    let state_root := hash_state zeroed in
    if negb ((original =? ZERO) || (original =? state_root)) then Panic
    else
      let s := with_header anchor (set_state_root (s_header anchor) state_root) in
      let root := hash_header (s_header s) in
      let cp := mkCp root (h_slot (s_header s)) in
      let t1 := set_headers t (<[root := s_header s]> (t_headers t)) in
      let t2 := set_roots t1 (<[h_slot (s_header s) := root]> (t_roots t1)) in
      let t3 := match body with
                | Some b => set_bodies t2 (<[root := b]> (t_bodies t2))
                | None => t2
                end in
      let t4 := set_states t3 (<[root := s]> (t_states t3)) in
      let t5 := set_live t4 (<[(h_slot (s_header s), root) := h_parent (s_header s)]> (t_live t4)) in
      Ok (mkDb 0 (s_genesis_time anchor) root root cp cp t5).

  (** crates/common/types/src/state.rs:141-160 *)
  Definition anchor_pair_is_consistent (s : State) (b : Block) : bool :=
    if negb (bool_decide (set_state_root (s_header s) ZERO = set_state_root (header_of hash_body b) ZERO))
    then false
    else
      let saved := h_state_root (s_header s) in
      let computed := hash_state (with_header s (set_state_root (s_header s) ZERO)) in
      if negb (saved =? ZERO) && negb (saved =? computed) then false
      else b_state_root b =? computed.

  (** store.rs:585-601 *)
  Definition get_forkchoice_store (t : Tables) (s : State) (b : Block) : res unit Db :=
    if anchor_pair_is_consistent s b then init_store t s (Some (b_atts b)) else Err tt.

  (** store.rs:571-574 *)
  Definition from_anchor_state (t : Tables) (s : State) : res unit Db := init_store t s None.
End Storage.
