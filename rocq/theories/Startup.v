(** Start-up: checkpoint sync, resuming a database, genesis; and the two endpoints
    a checkpoint is downloaded from.
    Models bin/ethlambda/src/checkpoint_sync.rs, bin/ethlambda/src/main.rs:643-756,
    crates/common/types/src/genesis.rs, crates/storage/src/store.rs:603-672 and
    crates/net/rpc/src/base.rs:22-52. *)
From Verif Require Export NodeSpec.

(** genesis.rs:26-39; keys as numbers *)
Record GenesisConfig := mkGC { gc_time : N; gc_entries : list (N * N) }.
(** genesis.rs:42-52 *)
Definition gc_validators (g : GenesisConfig) : list Validator :=
  imap (fun i e => mkVal e.1 e.2 (N.of_nat i)) (gc_entries g).

(** genesis.rs:10-22 *)
Inductive GenesisMismatch :=
| MGenesisTime
| MValidatorCount
| MNonSequentialIndex (position : N)
| MValidatorPubkey (index : N).

(** genesis.rs:100-113, from [position] on *)
Fixpoint verify_pairs (position : N) (actual expected : list Validator) : res GenesisMismatch unit :=
  match actual, expected with
  | a :: actual', e :: expected' =>
      if negb (v_index a =? position) then Err (MNonSequentialIndex position)
      else if negb (v_att_key a =? v_att_key e) || negb (v_prop_key a =? v_prop_key e)
      then Err (MValidatorPubkey position)
      else verify_pairs (position + 1) actual' expected'
  | _, _ => Ok tt
  end.
(** genesis.rs:77-115 *)
Definition verify_state_genesis (s : State) (genesis_time : N) (expected : list Validator)
  : res GenesisMismatch unit :=
  if negb (s_genesis_time s =? genesis_time) then Err MGenesisTime
  else if negb (lenN (s_validators s) =? lenN expected) then Err MValidatorCount
  else verify_pairs 0 (s_validators s) expected.

(** checkpoint_sync.rs:39-73.  [CHttp]: no answer, an error status or undecodable
    bytes. *)
Inductive CkError :=
| CHttp | CSlotIsZero | CNoValidators | CGenesis (m : GenesisMismatch)
| CMissingState | CDbGenesis (m : GenesisMismatch)
| CFinalizedExceedsStateSlot | CJustifiedPrecedesFinalized | CJustifiedFinalizedRootMismatch
| CBlockHeaderSlotExceedsState | CBlockHeaderFinalizedRootMismatch | CBlockHeaderJustifiedRootMismatch
| CAnchorPairingMismatch | CNoCheckpointUrls.

Definition MAX_ANCHOR_FETCH_ATTEMPTS : nat := 3.
Definition MAX_CHECKPOINT_ATTEMPTS : nat := 5.
(** crates/storage/src/store.rs *)
Definition MAX_RESUMABLE_DB_STATE_AGE : N := 450.

Section Startup.
  Context (E : Env).
  Notation hs := (e_state E).
  Notation hh := (e_header E).
  Notation hb := (e_body E).

  (** checkpoint_sync.rs:190-253 *)
  Definition verify_checkpoint_state (s : State) (genesis_time : N) (expected : list Validator)
    : res CkError unit :=
    if s_slot s =? 0 then Err CSlotIsZero
    else if lenN (s_validators s) =? 0 then Err CNoValidators
    else match verify_state_genesis s genesis_time expected with
    | Panic => Panic
    | Err m => Err (CGenesis m)
    | Ok _ =>
      let f := s_finalized s in
      let j := s_justified s in
      let h := s_header s in
      let block_root := hh h in
      if s_slot s <? cp_slot f then Err CFinalizedExceedsStateSlot
      else if cp_slot j <? cp_slot f then Err CJustifiedPrecedesFinalized
      else if (cp_slot j =? cp_slot f) && negb (cp_root j =? cp_root f) then Err CJustifiedFinalizedRootMismatch
      else if s_slot s <? h_slot h then Err CBlockHeaderSlotExceedsState
      else if (h_slot h =? cp_slot f) && negb (block_root =? cp_root f) then Err CBlockHeaderFinalizedRootMismatch
      else if (h_slot h =? cp_slot j) && negb (block_root =? cp_root j) then Err CBlockHeaderJustifiedRootMismatch
      else Ok tt
    end.

  (** What a URL answers to the two requests of one attempt; [None] is any HTTP or
      decoding error.  The first argument is the round of [fetch_anchor_with_retry],
      the second the position of the URL, the third the attempt at that URL (all from
      0).  The delays between attempts are not modelled. *)
  Definition Answers : Type := nat -> nat -> nat -> option State * option SignedBlock.

  (** checkpoint_sync.rs:124-180.  When both requests fail the code reports whichever
      failed first; here the state's error (neither leads to another attempt). *)
  Definition fetch_finalized_anchor (gt : N) (vals : list Validator)
      (answer : option State * option SignedBlock) : res CkError (State * SignedBlock) :=
    match answer.1 with
    | None => Err CHttp
    | Some s =>
        let! _ := verify_checkpoint_state s gt vals in
        match answer.2 with
        | None => Err CHttp
        | Some sb =>
            if anchor_pair_is_consistent hs hb s (sb_block sb) then Ok (s, sb)
            else Err CAnchorPairingMismatch
        end
    end.

  (** checkpoint_sync.rs:255-282: [left] attempts are left, [attempt] were made *)
  Fixpoint try_loop (gt : N) (vals : list Validator) (answer : nat -> option State * option SignedBlock)
      (attempt left : nat) : res CkError (State * SignedBlock) :=
    match fetch_finalized_anchor gt vals (answer attempt) with
    | Err CAnchorPairingMismatch =>
        match left with
        | O => Err CAnchorPairingMismatch
        | S left' => try_loop gt vals answer (S attempt) left'
        end
    | r => r
    end.
  Definition try_checkpoint_url gt vals answer :=
    try_loop gt vals answer 0 (MAX_ANCHOR_FETCH_ATTEMPTS - 1).

  (** checkpoint_sync.rs:284-320: [left] URLs from position [pos] on *)
  Fixpoint url_loop (gt : N) (vals : list Validator) (answer : nat -> nat -> option State * option SignedBlock)
      (pos left : nat) (last_err : option CkError) : res CkError (State * SignedBlock) :=
    match left with
    | O => Err (default CNoCheckpointUrls last_err)
    | S left' =>
        match try_checkpoint_url gt vals (answer pos) with
        | Err e => url_loop gt vals answer (S pos) left' (Some e)
        | r => r
        end
    end.
  Definition fetch_anchor_block_and_state gt vals answer (urls : nat) :=
    url_loop gt vals answer 0 urls None.

  (** checkpoint_sync.rs:322-343 *)
  Fixpoint retry_loop (gt : N) (vals : list Validator) (net : Answers) (urls : nat)
      (round left : nat) : res CkError (State * SignedBlock) :=
    match fetch_anchor_block_and_state gt vals (net round) urls with
    | Err e =>
        match left with
        | O => Err e
        | S left' => retry_loop gt vals net urls (S round) left'
        end
    | r => r
    end.
  Definition fetch_anchor_with_retry gt vals net urls :=
    retry_loop gt vals net urls 0 (MAX_CHECKPOINT_ATTEMPTS - 1).

  (** The data directory: without the config or the finalized checkpoint (which
      [init_store] writes in one commit), or with a chain. *)
  Inductive Disk := DNew (t : Tables) | DChain (d : Db).
  Definition disk_tables (k : Disk) : Tables :=
    match k with DNew t => t | DChain d => db_tab d end.

  (** store.rs:603-672 *)
  Definition from_db_state (g : GenesisConfig) (k : Disk) : res CkError (option Db) :=
    match k with
    | DNew _ => Ok None
    | DChain d =>
        match read_state (db_tab d) (cp_root (db_fin d)) with
        | Ok (Some s) =>
            match verify_state_genesis s (gc_time g) (gc_validators g) with
            | Ok _ => Ok (Some d)
            | Err m => Err (CDbGenesis m)
            | Panic => Panic
            end
        | Ok None => Err CMissingState
        | _ => Panic
        end
    end.

  (** main.rs:681-756: the data directory afterwards and the outcome.  [now_ms] is
      the wall clock, [urls] the number of configured URLs.  [genesis_time * 1000]
      does not wrap here. *)
  Definition init_anchor (g : GenesisConfig) (urls : nat) (net : Answers) (k : Disk)
    : Disk * res CkError Node :=
    match urls with
    | O =>
        match from_anchor_state hs hh (disk_tables k) (genesis hb (gc_time g) (gc_validators g)) with
        | Ok d => (DChain d, Ok (start_node d))
        | _ => (k, Panic)
        end
    | _ =>
        match fetch_anchor_with_retry (gc_time g) (gc_validators g) net urls with
        | Ok (s, sb) =>
            match get_forkchoice_store hs hh hb (disk_tables k) s (sb_block sb) with
            | Ok d => let n := insert_anchor E (start_node d) sb in (DChain (nd_db n), Ok n)
            | Err _ => (k, Err CAnchorPairingMismatch)
            | Panic => (k, Panic)
            end
        | Err e => (k, Err e)
        | Panic => (k, Panic)
        end
    end.
  Definition fetch_initial_state (g : GenesisConfig) (urls : nat) (now_ms : N) (net : Answers) (k : Disk)
    : Disk * res CkError Node :=
    match from_db_state g k with
    | Panic => (k, Panic)
    | Err e => (k, Err e)
    | Ok (Some d) =>
        match t_headers (db_tab d) !! db_head d with
        | None => (k, Panic)
        | Some h =>
            let gap := (now_ms - gc_time g * 1000) / MILLISECONDS_PER_SLOT - h_slot h in
            if gap <=? MAX_RESUMABLE_DB_STATE_AGE then (k, Ok (start_node d))
            else match urls with
                 | O => (k, Ok (start_node d))
                 | _ => init_anchor g urls net k
                 end
        end
    | Ok None => init_anchor g urls net k
    end.

  (** *** The endpoints, crates/net/rpc/src/base.rs:22-38 and 40-52 *)
  Definition serve_finalized_state (n : Node) : res unit State :=
    match read_state (tab n) (cp_root (db_fin (nd_db n))) with
    | Ok (Some s) => Ok (with_header s (set_state_root (s_header s) ZERO))
    | _ => Panic
    end.
  (** [None]: 404 *)
  Definition serve_finalized_block (n : Node) : option SignedBlock :=
    get_signed_block hb (tab n) (cp_root (db_fin (nd_db n))).
End Startup.
