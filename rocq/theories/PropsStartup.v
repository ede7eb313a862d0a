(** Start-up: the property theorems C50, C51, C63 and the counterexample of C64. *)
From Verif Require Import StartupExamples.

(** ** C50 checkpoint state verification *)
Theorem C50_accepts_iff E g s :
  verify_checkpoint_state E s (gc_time g) (gc_validators g) = Ok tt <->
  s_slot s <> 0 /\ gc_entries g <> [] /\ ours g s /\ coherent (e_header E) s.
Proof. exact (C50_accepts_iff_pf E g s). Qed.
Print Assumptions C50_accepts_iff.

(** Nothing makes the verification panic. *)
Theorem C50_total E g s : verify_checkpoint_state E s (gc_time g) (gc_validators g) <> Panic.
Proof. exact (verify_total E g s). Qed.
Print Assumptions C50_total.

(** Every state of the network's chain after the first block is accepted, whether or
    not its latest header carries the state root. *)
Theorem C50_honest E g s bs a :
  chain (e_state E) (e_header E) (e_body E) (gc_time g) (gc_validators g) s bs -> bs <> [] ->
  a = s \/ a = with_header s (filled_header (e_state E) s) ->
  verify_checkpoint_state E a (gc_time g) (gc_validators g) = Ok tt.
Proof. intros H1 H2 H3. apply C50_accepts_iff_pf. exact (C50_honest_pf E g s bs a H1 H2 H3). Qed.
Print Assumptions C50_honest.

Example C50_example :
  chain i_state i_header toy_body (gc_time xg) (gc_validators xg) x_cs [xb1.1; xb2.1; xb3.1] /\
  verify_checkpoint_state xe x_cs 1000 x_vals = Ok tt /\
  verify_checkpoint_state xe (with_slot x_cs 2) 1000 x_vals = Err CBlockHeaderSlotExceedsState /\
  verify_checkpoint_state xe x_cs 1000 (reverse x_vals) = Err (CGenesis (MValidatorPubkey 0)) /\
  verify_checkpoint_state xe x_gen 1000 x_vals = Err CSlotIsZero.
Proof.
  rewrite xg_vals. split; [|vm_compute; done].
  apply (x_chain_sound x_gen []); [constructor|]. vm_compute. reflexivity.
Qed.

(** ** C51 start-up source selection *)
(** An own chain is resumed unchanged when recent or when no URL is configured. *)
Theorem C51_resume E g urls now net d s slot :
  finalized_state d s -> ours g s -> has_slot (db_tab d) (db_head d) slot ->
  recent g now slot \/ urls = O ->
  fetch_initial_state E g urls now net (DChain d) = (DChain d, Ok (start_node d)).
Proof. exact (C51_resume_pf E g urls now net d s slot). Qed.
Print Assumptions C51_resume.

(** A chain of another network, or one without its finalized state, is left untouched
    and the node does not start. *)
Theorem C51_foreign E g urls now net d s :
  finalized_state d s -> ~ ours g s ->
  exists e, fetch_initial_state E g urls now net (DChain d) = (DChain d, Err e).
Proof. exact (C51_foreign_pf E g urls now net d s). Qed.
Print Assumptions C51_foreign.
Theorem C51_missing E g urls now net d :
  read_state (db_tab d) (cp_root (db_fin d)) = Ok None ->
  exists e, fetch_initial_state E g urls now net (DChain d) = (DChain d, Err e).
Proof. exact (C51_missing_pf E g urls now net d). Qed.
Print Assumptions C51_missing.

(** Without chain and URLs: genesis. *)
Theorem C51_genesis E g now net t :
  exists d, from_anchor_state (e_state E) (e_header E) t (genesis (e_body E) (gc_time g) (gc_validators g)) = Ok d /\
    fetch_initial_state E g O now net (DNew t) = (DChain d, Ok (start_node d)).
Proof. exact (C51_genesis_pf E g now net t). Qed.
Print Assumptions C51_genesis.

(** With URLs and nothing to resume: the first verified, matching pair is the anchor;
    if there is none the node does not start and the disk is unchanged. *)
Theorem C51_checkpoint E g urls now net k pair :
  urls <> O -> unusable_disk g now k -> first_yield E g urls net pair ->
  exists d, get_forkchoice_store (e_state E) (e_header E) (e_body E) (disk_tables k) pair.1 (sb_block pair.2) = Ok d /\
    let n := insert_anchor E (start_node d) pair.2 in
    fetch_initial_state E g urls now net k = (DChain (nd_db n), Ok n).
Proof. exact (C51_checkpoint_pf E g urls now net k pair). Qed.
Print Assumptions C51_checkpoint.
Theorem C51_none E g urls now net k :
  urls <> O -> unusable_disk g now k -> no_yield E g urls net ->
  exists e, fetch_initial_state E g urls now net k = (k, Err e).
Proof. exact (C51_none_pf E g urls now net k). Qed.
Print Assumptions C51_none.

(** What the retries amount to: the pair of the first URL that yields one, over five
    rounds; an error exactly when no URL yields any. *)
Theorem C51_urls E g urls net :
  (forall pair, fetch_anchor_with_retry E (gc_time g) (gc_validators g) net urls = Ok pair <->
     first_yield E g urls net pair) /\
  ((exists e, fetch_anchor_with_retry E (gc_time g) (gc_validators g) net urls = Err e) <->
     no_yield E g urls net).
Proof. exact (conj (fun pair => C51_urls_ok_pf E g net urls pair) (C51_urls_err_pf E g net urls)). Qed.
Print Assumptions C51_urls.

(** The pair comes from the second attempt of the second URL in the second round. *)
Example C51_example :
  first_yield xe xg 2 xs_net (xs_state, xs_block) /\ unusable_disk xg (x_at 2 0) (DNew empty_tables) /\
  unusable_disk xg (x_at 502 0) (DChain (nd_db x_old)) /\
  x_ok_eq (fetch_initial_state xe xg 2 (x_at 2 0) xs_net (DNew empty_tables)) (x_root xe xb1) 1 = true /\
  match fetch_initial_state xe xg 1 (x_at 2 0) xs_net (DNew empty_tables) with
  | (DNew _, Err CHttp) => true | _ => false end = true /\
  match fetch_initial_state xe xg 2 (x_at 452 0) xs_net (DChain (nd_db x_old)) with
  | (DChain d, Ok n) => db_head d =? x_root xe xq | _ => false end = true /\
  match fetch_initial_state xe (mkGC 1001 (gc_entries xg)) 2 (x_at 2 0) xs_net (DChain (nd_db x_old)) with
  | (DChain d, Err (CDbGenesis MGenesisTime)) => db_head d =? x_root xe xq | _ => false end = true.
Proof. exact (conj xs_yield (conj I (conj x_old_stale x_again_states))). Qed.

(** After a checkpoint start over an own stale database, blocks that are not ancestors
    of the head are still served by slot: the old slot index is kept. *)
Theorem C64_refuted :
  exists E g urls now net old peer new sb,
    good_hash (e_header E) /\ reachable E (gc_time g) (gc_validators g) old /\
    reachable E (gc_time g) (gc_validators g) peer /\
    (forall r p q s, (net r p q).1 = Some s -> serve_finalized_state peer = Ok s) /\
    fetch_initial_state E g urls now net (DChain (nd_db old)) = (DChain (nd_db new), Ok new) /\
    sb ∈ get_signed_blocks_by_slot_range (e_body E) (tab new) 1 2 /\
    ~ ancestor (tab new) (block_root (e_header E) (e_body E) (sb_block sb)) (db_head (nd_db new)).
Proof.
  destruct x_new_serves_fork as (sb & Hsb & Hno).
  exists xe, xg, 2%nat, (x_at 502 0), xs_net, x_old, x_n1, x_new, sb.
  split; [exact xe_good|]. split; [rewrite xg_vals; exact x_old_reach|]. split; [rewrite xg_vals; exact x_reach1|].
  exact (conj xs_net_served (conj x_again_ok (conj Hsb Hno))).
Qed.
Print Assumptions C64_refuted.

(** ** C63 checkpoints served by running nodes *)
(** Once its finalized block is not genesis, what a node serves is accepted by the
    other nodes of the network: a verified state and, when the block endpoint answers,
    the block of exactly this state. *)
Theorem C63_pair E g n :
  good_hash (e_header E) -> lenN (gc_validators g) <= VALIDATOR_REGISTRY_LIMIT ->
  reachable E (gc_time g) (gc_validators g) n -> cp_slot (db_fin (nd_db n)) <> 0 ->
  exists s, serve_finalized_state n = Ok s /\
    verify_checkpoint_state E s (gc_time g) (gc_validators g) = Ok tt /\
    valid_anchor E (gc_time g) (gc_validators g) s /\ s_slot s = cp_slot (db_fin (nd_db n)) /\
    forall sb, serve_finalized_block E n = Some sb ->
      block_root (e_header E) (e_body E) (sb_block sb) = cp_root (db_fin (nd_db n)) /\
      anchor_matches (e_state E) (e_body E) s (sb_block sb).
Proof.
  intros H1 H2 H3 H4. destruct (C63_pair_pf E g H1 H2 n H3 H4) as (s & A & B & C). exists s.
  split; [exact A|]. split; [apply C50_accepts_iff_pf; exact B|exact C].
Qed.
Print Assumptions C63_pair.

(** The block endpoint answers, if the finalized slot never was higher before, and if
    the node was started with the anchor block or has finalized something since. *)
Theorem C63_served E g a n0 es n :
  good_hash (e_header E) -> lenN (gc_validators g) <= VALIDATOR_REGISTRY_LIMIT ->
  valid_anchor E (gc_time g) (gc_validators g) a -> started E a n0 -> node_run E n0 es n ->
  (forall es1 n1, es1 `prefix_of` es -> node_run E n0 es1 n1 ->
     cp_slot (db_fin (nd_db n1)) <= cp_slot (db_fin (nd_db n))) ->
  (exists d sb, get_forkchoice_store (e_state E) (e_header E) (e_body E) empty_tables a (sb_block sb) = Ok d /\
     n0 = insert_anchor E (start_node d) sb) \/ s_slot a < cp_slot (db_fin (nd_db n)) ->
  is_Some (serve_finalized_block E n).
Proof. intros H1 H2. exact (C63_served_pf E g H1 H2 a n0 es n). Qed.
Print Assumptions C63_served.

(** A node that starts on an empty disk with URLs that answer like running nodes is
    one of the running nodes the theorems speak about. *)
Theorem C63_join E g urls now net k n :
  good_hash (e_header E) -> lenN (gc_validators g) <= VALIDATOR_REGISTRY_LIMIT ->
  (forall r p q s, (net r p q).1 = Some s ->
     exists m, reachable E (gc_time g) (gc_validators g) m /\ serve_finalized_state m = Ok s) ->
  fetch_initial_state E g urls now net (DNew empty_tables) = (k, Ok n) ->
  reachable E (gc_time g) (gc_validators g) n /\ k = DChain (nd_db n).
Proof. intros H1 H2. exact (C63_join_pf E g H1 H2 urls now net k n). Qed.
Print Assumptions C63_join.

Example C63_example :
  reachable xe (gc_time xg) (gc_validators xg) x_n1 /\ cp_slot (db_fin (nd_db x_n1)) = 1 /\
  serve_finalized_state x_n1 = Ok xs_state /\ serve_finalized_block xe x_n1 = Some xs_block /\
  sb_block xs_block = xb1.1 /\ s_slot xs_state = 1 /\
  x_ok_eq (fetch_initial_state xe xg 2 (x_at 2 0) xs_net (DNew empty_tables)) (x_root xe xb1) 1 = true.
Proof.
  split; [rewrite xg_vals; exact x_reach1|]. split; [exact x_fin1|]. destruct xs_served as (H1 & H2 & H3 & H4).
  exact (conj H1 (conj H2 (conj H3 (conj H4 xs_start)))).
Qed.
