(** Answers to other nodes' block requests and to HTTP lookups.
    Models crates/net/p2p/src/req_resp/handlers.rs:201-284 and 382-397,
    crates/net/rpc/src/blocks.rs, genesis.rs:13-22, fork_choice.rs:36-86 and
    base.rs:54-60.  Encodings (SSZ, JSON), logging and the transport are left out;
    reads of the database do not fail. *)
From Coq Require Import Ascii String.
From Verif Require Export Actor.
Local Open Scope N_scope.

(** crates/net/p2p/src/req_resp/messages.rs:8 *)
Definition MAX_REQUEST_BLOCKS : N := 1024.

(** messages.rs: a success chunk list or [INVALID_REQUEST] *)
Inductive Response :=
| RBlocks (l : list SignedBlock)
| RInvalid.
(** messages.rs [Status] *)
Record Status := mkStatus { st_finalized : Checkpoint; st_head : Checkpoint }.

(** HTTP answers: 200, 400, 404 *)
Inductive HttpResp (A : Type) :=
| HOk (x : A)
| HInvalid
| HNotFound.
Arguments HOk {A} x.
Arguments HInvalid {A}.
Arguments HNotFound {A}.

(** The value of an ASCII digit. *)
Definition digit_val (c : ascii) : option N :=
  let n := N_of_ascii c in
  if (48 <=? n) && (n <=? 57) then Some (n - 48) else None.
(** ... of a hexadecimal digit of either case, as [hex::decode] reads it. *)
Definition hex_val (c : ascii) : option N :=
  let n := N_of_ascii c in
  if (48 <=? n) && (n <=? 57) then Some (n - 48)
  else if (97 <=? n) && (n <=? 102) then Some (n - 87)
  else if (65 <=? n) && (n <=? 70) then Some (n - 55)
  else None.
(** The number written by the digits, most significant first, after [acc]. *)
Fixpoint read_digits (val : ascii -> option N) (base acc : N) (s : string) : option N :=
  match s with
  | EmptyString => Some acc
  | String c s' => match val c with Some d => read_digits val base (acc * base + d) s' | None => None end
  end.
(** [str::strip_prefix] *)
Fixpoint str_strip (p s : string) : option string :=
  match p, s with
  | EmptyString, _ => Some s
  | String a p', String b s' => if Ascii.eqb a b then str_strip p' s' else None
  | _, EmptyString => None
  end.
(** blocks.rs:72-80: a root is the number its 32 bytes write, first byte most
    significant. *)
Definition parse_root (s : string) : option H256 :=
  if Nat.eqb (String.length s) 64 then read_digits hex_val 16 0 s else None.
(** blocks.rs:64-65: only ASCII digits, then [str::parse::<u64>], which wants at least
    one digit and a value below 2^64. *)
Definition parse_slot (s : string) : option N :=
  match s with
  | EmptyString => None
  | _ => match read_digits digit_val 10 0 s with
         | Some n => if n <? two64 then Some n else None
         | None => None
         end
  end.

Section Serve.
  Context (E : Env).
  Notation hb := (e_body E).

  (** *** Requests of peers *)
  (** handlers.rs:201-223 *)
  Fixpoint found_blocks (n : Node) (roots : list H256) : list SignedBlock :=
    match roots with
    | [] => []
    | r :: roots' => match get_signed_block hb (tab n) r with
                     | Some sb => sb :: found_blocks n roots'
                     | None => found_blocks n roots'
                     end
    end.
  Definition handle_blocks_by_root (n : Node) (roots : list H256) : Response :=
    RBlocks (found_blocks n roots).
  (** handlers.rs:261-284 *)
  Definition canonical_blocks_by_range (n : Node) (start_slot count : N) : list SignedBlock :=
    if count =? 0 then []
    else if two64 <=? start_slot + (count - 1) then []
    else get_signed_blocks_by_slot_range hb (tab n) start_slot (start_slot + (count - 1)).
  (** handlers.rs:225-259 *)
  Definition handle_blocks_by_range (n : Node) (start_slot count : N) : Response :=
    if (count =? 0) || (MAX_REQUEST_BLOCKS <? count) then RInvalid
    else RBlocks (canonical_blocks_by_range n start_slot count).
  (** handlers.rs:382-397 *)
  Definition build_status (n : Node) : res unit Status :=
    let! hd := slot_of_root n (db_head (nd_db n)) in
    Ok (mkStatus (db_fin (nd_db n)) (mkCp (db_head (nd_db n)) hd)).

  (** *** HTTP *)
  (** blocks.rs:82-92 *)
  Definition resolve_slot (n : Node) (slot : N) : res unit (HttpResp H256) :=
    let! s := head_state n in
    match getN (s_hist s) slot with
    | None => Ok HNotFound
    | Some root => if root =? ZERO then Ok HNotFound else Ok (HOk root)
    end.
  (** blocks.rs:61-70 *)
  Definition resolve_block_id (n : Node) (block_id : string) : res unit (HttpResp H256) :=
    match str_strip "0x" block_id with
    | Some hex => Ok (match parse_root hex with Some r => HOk r | None => HInvalid end)
    | None =>
        match parse_slot block_id with
        | Some slot => resolve_slot n slot
        | None => Ok HInvalid
        end
    end.
  (** blocks.rs:23-37 *)
  Definition http_get_block (n : Node) (block_id : string) : res unit (HttpResp Block) :=
    let! id := resolve_block_id n block_id in
    match id with
    | HOk root => Ok (match get_block hb (tab n) root with Some b => HOk b | None => HNotFound end)
    | HInvalid => Ok HInvalid
    | HNotFound => Ok HNotFound
    end.
  (** blocks.rs:40-54 *)
  Definition http_get_block_header (n : Node) (block_id : string) : res unit (HttpResp Header) :=
    let! id := resolve_block_id n block_id in
    match id with
    | HOk root => Ok (match get_header (tab n) root with Some h => HOk h | None => HNotFound end)
    | HInvalid => Ok HInvalid
    | HNotFound => Ok HNotFound
    end.
  (** genesis.rs:13-22 *)
  Definition http_get_genesis (n : Node) : res unit (N * N) :=
    let! s := head_state n in Ok (db_gt (nd_db n), lenN (s_validators s)).

  (** fork_choice.rs:18-34 *)
  Record ForkChoiceNode := mkFCN {
    fcn_root : H256; fcn_slot : N; fcn_parent : H256; fcn_proposer : N; fcn_weight : N }.
  Record ForkChoiceResponse := mkFCR {
    fcr_nodes : list ForkChoiceNode; fcr_head : H256; fcr_justified : Checkpoint;
    fcr_finalized : Checkpoint; fcr_safe : H256; fcr_validators : N }.
  (** fork_choice.rs:36-86 *)
  Definition http_get_fork_choice (n : Node) : res unit ForkChoiceResponse :=
    let blocks := map_to_list (live_chain (tab n)) in
    match compute_block_weights (cp_slot (db_fin (nd_db n))) blocks (known_votes n) with
    | None => Err tt (* the walk would not end *)
    | Some weights =>
        let! s := head_state n in
        Ok (mkFCR
          (map (fun x => mkFCN x.1 x.2.1 x.2.2
             (match get_header (tab n) x.1 with Some h => h_proposer h | None => 0 end)
             (default 0 (weights !! x.1))) blocks)
          (db_head (nd_db n)) (db_just (nd_db n)) (db_fin (nd_db n)) (db_safe (nd_db n))
          (lenN (s_validators s)))
    end.
End Serve.
