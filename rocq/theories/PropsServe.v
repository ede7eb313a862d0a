(** What a node hands out: block requests of peers, status messages, HTTP lookups. *)
From Coq Require Import String.
From Verif Require Import ServeExamples.
Local Open Scope N_scope.

(** ** C64: a range request is answered with the chain of the head, whole and in order. *)
Theorem C64_range E gt vals n start count :
  good_hash (e_header E) -> lenN vals <= VALIDATOR_REGISTRY_LIMIT -> reachable E gt vals n ->
  0 < count <= 1024 -> start + count <= two64 ->
  exists l, handle_blocks_by_range E n start count = RBlocks l /\
    lenN l <= count /\
    StronglySorted N.lt (map (fun sb => b_slot (sb_block sb)) l) /\
    forall sb, sb ∈ l <-> exists r, ancestor (tab n) r (db_head (nd_db n)) /\
      get_signed_block (e_body E) (tab n) r = Some sb /\ start <= b_slot (sb_block sb) < start + count.
Proof. intros H1 H2. exact (range_served E gt vals H1 H2 n start count). Qed.
Print Assumptions C64_range.

(** Requests of no block or of more than 1024 are refused. *)
Theorem C64_refused E n start count :
  handle_blocks_by_range E n start count = RInvalid <-> count = 0 \/ 1024 < count.
Proof. exact (range_refused E n start count). Qed.
Print Assumptions C64_refused.

(** A request by roots is answered with the stored blocks among them, in the order
    asked, and each block has the root it was asked by. *)
Theorem C64_roots E gt vals n roots :
  good_hash (e_header E) -> lenN vals <= VALIDATOR_REGISTRY_LIMIT -> reachable E gt vals n ->
  exists l, handle_blocks_by_root E n roots = RBlocks l /\
    map (fun sb => block_root (e_header E) (e_body E) (sb_block sb)) l =
      filter (fun r => is_Some (get_signed_block (e_body E) (tab n) r)) roots /\
    forall sb, sb ∈ l -> get_signed_block (e_body E) (tab n) (block_root (e_header E) (e_body E) (sb_block sb)) = Some sb.
Proof. intros H1 H2. exact (root_served E gt vals H1 H2 n roots). Qed.
Print Assumptions C64_roots.

(** Every block the node has received, other than the one it started from, can be
    handed out with its proof for 21600 slots. *)
Theorem C64_available E gt vals a n0 es n r h :
  good_hash (e_header E) -> lenN vals <= VALIDATOR_REGISTRY_LIMIT ->
  valid_anchor E gt vals a -> started E a n0 -> node_run E n0 es n ->
  t_headers (tab n) !! r = Some h -> r <> db_head (nd_db n0) -> db_time (nd_db n) / 5 < h_slot h + 21600 ->
  exists sb, get_signed_block (e_body E) (tab n) r = Some sb.
Proof. intros H1 H2. exact (recent_served E gt vals H1 H2 a n0 es n r h). Qed.
Print Assumptions C64_available.

Example C64_nonvacuous :
  reachable xe 1000 x_vals x_n1 /\ slots_of (handle_blocks_by_range xe x_n1 2 1000) = Some [2; 3] /\
  slots_of (handle_blocks_by_root xe x_n1 [x_root xe xb2; 5; x_root xe xb1]) = Some [2; 1] /\
  slots_of (handle_blocks_by_range xe x_n1 0 1025) = None.
Proof. split; [exact x_reach1|]. vm_compute. done. Qed.
Example C64_available_nonvacuous :
  valid_anchor xe 1000 x_vals x_gen /\ started xe x_gen x_n0 /\ node_run xe x_n0 x_es x_n1 /\
  has_slot (tab x_n1) (db_head (nd_db x_n1)) 3 /\ (db_head (nd_db x_n1) =? db_head (nd_db x_n0)) = false /\
  db_time (nd_db x_n1) / 5 <? 3 + 21600 = true.
Proof. split; [exact x_anchor|]. split; [exact x_started|]. split; [exact x_run1|]. split; [exact x_n1_head|]. split; vm_compute; reflexivity. Qed.

(** ** C67: HTTP lookups. A root finds the stored block with that root. *)
Theorem C67_by_root E gt vals n r :
  good_hash (e_header E) -> lenN vals <= VALIDATOR_REGISTRY_LIMIT -> reachable E gt vals n -> r < 2 ^ 256 ->
  exists x, http_get_block E n (root_id r) = Ok x /\
    (x = HNotFound /\ get_block (e_body E) (tab n) r = None \/
     exists b, x = HOk b /\ block_root (e_header E) (e_body E) b = r /\ get_block (e_body E) (tab n) r = Some b).
Proof. intros H1 H2. exact (block_by_root E gt vals H1 H2 n r). Qed.
Print Assumptions C67_by_root.

Theorem C67_header_by_root E gt vals n r :
  good_hash (e_header E) -> lenN vals <= VALIDATOR_REGISTRY_LIMIT -> reachable E gt vals n -> r < 2 ^ 256 ->
  exists x, http_get_block_header n (root_id r) = Ok x /\
    (x = HNotFound /\ t_headers (tab n) !! r = None \/
     exists h, x = HOk h /\ e_header E h = r /\ t_headers (tab n) !! r = Some h).
Proof. intros H1 H2. exact (header_by_root E gt vals H1 H2 n r). Qed.
Print Assumptions C67_header_by_root.

(** A slot finds the block of that slot on the chain of the head, if there is one.
    Missing: the slot of the head itself. *)
Theorem C67_by_slot_partial E gt vals n i sl :
  good_hash (e_header E) -> lenN vals <= VALIDATOR_REGISTRY_LIMIT -> reachable E gt vals n -> i < two64 ->
  has_slot (tab n) (db_head (nd_db n)) sl -> i <> sl ->
  exists x, http_get_block E n (slot_id i) = Ok x /\ x <> HInvalid /\
    forall b, x = HOk b <-> exists r, ancestor (tab n) r (db_head (nd_db n)) /\ has_slot (tab n) r i /\
      get_block (e_body E) (tab n) r = Some b.
Proof. intros H1 H2. exact (block_by_slot E gt vals H1 H2 n i sl). Qed.
Print Assumptions C67_by_slot_partial.

Theorem C67_header_by_slot_partial E gt vals n i sl :
  good_hash (e_header E) -> lenN vals <= VALIDATOR_REGISTRY_LIMIT -> reachable E gt vals n -> i < two64 ->
  has_slot (tab n) (db_head (nd_db n)) sl -> i <> sl ->
  exists x, http_get_block_header n (slot_id i) = Ok x /\ x <> HInvalid /\
    forall h, x = HOk h <-> exists r, ancestor (tab n) r (db_head (nd_db n)) /\
      t_headers (tab n) !! r = Some h /\ h_slot h = i.
Proof. intros H1 H2. exact (header_by_slot E gt vals H1 H2 n i sl). Qed.
Print Assumptions C67_header_by_slot_partial.

(** Exactly the texts that are neither a root nor a slot are refused as malformed. *)
Theorem C67_malformed E gt vals n id :
  good_hash (e_header E) -> lenN vals <= VALIDATOR_REGISTRY_LIMIT -> reachable E gt vals n ->
  (http_get_block E n id = Ok HInvalid <-> ~ root_text id /\ ~ slot_text id) /\
  (http_get_block_header n id = Ok HInvalid <-> ~ root_text id /\ ~ slot_text id).
Proof. intros H1 H2. exact (ids_invalid E gt vals H1 H2 n id). Qed.
Print Assumptions C67_malformed.

(** The head is not found by its own slot: it is not among the roots its own state
    remembers. *)
Theorem C67_refuted : exists E gt vals n b,
  good_hash (e_header E) /\ lenN vals <= VALIDATOR_REGISTRY_LIMIT /\ reachable E gt vals n /\
  get_block (e_body E) (tab n) (db_head (nd_db n)) = Some b /\ b_slot b < two64 /\
  http_get_block E n (slot_id (b_slot b)) = Ok HNotFound.
Proof. exact C67_refuted_pf. Qed.
Print Assumptions C67_refuted.

Example C67_nonvacuous :
  reachable xe 1000 x_vals x_n1 /\ has_slot (tab x_n1) (db_head (nd_db x_n1)) 3 /\
  (x_root xe xb2 <? 2 ^ 256) = true /\
  block_slot (http_get_block xe x_n1 (root_id (x_root xe xb2))) = Some 2 /\
  block_slot (http_get_block xe x_n1 (slot_id 2)) = Some 2 /\
  not_found (http_get_block xe x_n1 (root_id 12)) = true /\
  map (fun s => invalid (http_get_block xe x_n1 s)) ["0x12"; "latest"; ""; "18446744073709551616"; "-1"; "+1"; "01"]%string =
    [true; true; true; true; true; true; false].
Proof. split; [exact x_reach1|]. split; [exact x_n1_head|]. vm_compute. done. Qed.

(** The status message: the finalized checkpoint, and the head with its slot, which is
    not below the finalized one. *)
Theorem C67_status E gt vals n :
  good_hash (e_header E) -> lenN vals <= VALIDATOR_REGISTRY_LIMIT -> reachable E gt vals n ->
  exists fin hd, build_status n = Ok (mkStatus fin hd) /\
    fin = db_fin (nd_db n) /\ cp_root hd = db_head (nd_db n) /\ has_slot (tab n) (cp_root hd) (cp_slot hd) /\
    has_slot (tab n) (cp_root fin) (cp_slot fin) /\ cp_slot fin <= cp_slot hd.
Proof. intros H1 H2. exact (status_ok E gt vals H1 H2 n). Qed.
Print Assumptions C67_status.

(** Genesis time and number of validators are those of the chain. *)
Theorem C67_genesis E gt vals n :
  good_hash (e_header E) -> lenN vals <= VALIDATOR_REGISTRY_LIMIT -> reachable E gt vals n ->
  http_get_genesis n = Ok (gt, lenN vals).
Proof. intros H1 H2. exact (genesis_ok E gt vals H1 H2 n). Qed.
Print Assumptions C67_genesis.

(** The fork choice view: each live block once, with its slot, parent, proposer and the
    number of validators whose latest vote is for it or a descendant. *)
Theorem C67_fork_choice E gt vals n :
  good_hash (e_header E) -> lenN vals <= VALIDATOR_REGISTRY_LIMIT -> reachable E gt vals n ->
  exists R, http_get_fork_choice n = Ok R /\
    fcr_head R = db_head (nd_db n) /\ fcr_safe R = db_safe (nd_db n) /\
    fcr_justified R = db_just (nd_db n) /\ fcr_finalized R = db_fin (nd_db n) /\ fcr_validators R = lenN vals /\
    NoDup (map fcn_root (fcr_nodes R)) /\
    (forall r, r ∈ map fcn_root (fcr_nodes R) <-> is_Some (live_chain (tab n) !! r)) /\
    forall x, x ∈ fcr_nodes R -> exists h, t_headers (tab n) !! fcn_root x = Some h /\
      fcn_slot x = h_slot h /\ fcn_parent x = h_parent h /\ fcn_proposer x = h_proposer h /\
      (if h_slot h <=? cp_slot (db_fin (nd_db n)) then fcn_weight x = 0
       else counts (fcn_weight x) (votes_for_subtree (live_chain (tab n)) (fc_known (nd_votes n)) (fcn_root x))).
Proof. intros H1 H2. exact (fork_choice_ok E gt vals H1 H2 n). Qed.
Print Assumptions C67_fork_choice.

Example C67_views_nonvacuous :
  reachable xe 1000 x_vals x_n1 /\ http_get_genesis x_n1 = Ok (1000, 3) /\
  match build_status x_n1 with Ok s => Some (cp_slot (st_finalized s), cp_slot (st_head s)) | _ => None end = Some (1, 3) /\
  match http_get_fork_choice x_n1 with Ok R => map (fun x => (fcn_slot x, fcn_proposer x, fcn_weight x)) (fcr_nodes R) | _ => [] end
    = [(3, 0, 0); (1, 1, 0); (2, 2, 2)].
Proof. split; [exact x_reach1|]. vm_compute. done. Qed.
