(** Keys and pools: C20, C25, C26, C59. *)
From Verif Require Import PoolMore.

(** ** C20 keys of slot-indexed tables *)
Theorem C20_keys_decode slot root :
  slot < 2 ^ 64 -> root < 2 ^ 256 ->
  decode_slot_root_key (encode_slot_root_key slot root) = Ok (slot, root).
Proof. exact (key_decode slot root). Qed.
Print Assumptions C20_keys_decode.

Theorem C20_keys_order slot root slot' root' :
  slot < 2 ^ 64 -> slot' < 2 ^ 64 -> root < 2 ^ 256 -> root' < 2 ^ 256 ->
  (lex_lt (encode_slot_root_key slot root) (encode_slot_root_key slot' root') <->
   slot < slot' \/ (slot = slot' /\ root < root')) /\
  (encode_slot_root_key slot root = encode_slot_root_key slot' root' <-> slot = slot' /\ root = root').
Proof. exact (C20_keys_order_pf slot root slot' root'). Qed.
Print Assumptions C20_keys_order.

(** The bare key of a slot separates the keys of smaller slots from the rest;
    bare keys are ordered like slots. *)
Theorem C20_bare_key slot root slot' :
  slot < 2 ^ 64 -> slot' < 2 ^ 64 ->
  (lex_lt (encode_slot_root_key slot root) (encode_block_root_key slot') <-> slot < slot') /\
  (lex_lt (encode_block_root_key slot) (encode_block_root_key slot') <-> slot < slot').
Proof. exact (C20_bare_key_pf slot root slot'). Qed.
Print Assumptions C20_bare_key.

Example C20_example :
  length (encode_slot_root_key 258 (2 ^ 255 + 7)) = 40%nat /\
  take 10 (encode_slot_root_key 258 (2 ^ 255 + 7)) = [0; 0; 0; 0; 0; 0; 1; 2; 128; 0] /\
  decode_slot_root_key (encode_slot_root_key 258 (2 ^ 255 + 7)) = Ok (258, 2 ^ 255 + 7).
Proof. repeat split; vm_compute; reflexivity. Qed.

(** ** C59 the byte-wise subset test *)
Theorem C59_subset_exact a b :
  bits_is_subset a b = true <-> (forall i, a !! i = Some true -> b !! i = Some true).
Proof. exact (subset_spec a b). Qed.
Print Assumptions C59_subset_exact.

Example C59_example :
  bits_is_subset (replicate 9 false ++ [true]) (replicate 20 true) = true /\
  bits_is_subset (replicate 9 false ++ [true]) (replicate 9 true) = false /\
  bits_is_subset (replicate 30 false) [] = true.
Proof. repeat split; vm_compute; reflexivity. Qed.

(** ** C25 the aggregated-payload pool *)
(** Every sequence of operations is executed without underflow. *)
Theorem C25_runs ad_hash cap ops :
  exists bs b, pool_run ad_hash (buf_new cap) ops bs b.
Proof. exact (C25_runs_pf ad_hash cap ops). Qed.
Print Assumptions C25_runs.

Theorem C25_bounded ad_hash cap ops bs b :
  pool_run ad_hash (buf_new cap) ops bs b ->
  bf_total b = lenN (stored_proofs b) /\
  lenN (stored_proofs b) <= cap /\
  NoDup (bf_order b) /\
  (forall r, r ∈ bf_order b <-> proofs_of b r <> []) /\
  (forall r i j p q, proofs_of b r !! i = Some p -> proofs_of b r !! j = Some q -> i <> j ->
                     ~ covered (pr_bits p) (pr_bits q)).
Proof. exact (C25_bounded_pf ad_hash cap ops bs b). Qed.
Print Assumptions C25_bounded.

(** A pushed proof stays covered by a stored one as long as the pool has an
    entry for its data. *)
Theorem C25_covered ad_hash cap ops1 ops2 bs1 bs2 b1 b2 b d p :
  pool_run ad_hash (buf_new cap) ops1 bs1 b1 ->
  pool_step ad_hash b1 (Push d p) = Ok b2 ->
  pool_run ad_hash b2 ops2 bs2 b ->
  Forall (fun b' => proofs_of b' (ad_hash d) <> []) (b2 :: bs2) ->
  exists q, q ∈ proofs_of b (ad_hash d) /\ covered (pr_bits p) (pr_bits q).
Proof. exact (C25_covered_pf ad_hash cap ops1 ops2 bs1 bs2 b1 b2 b d p). Qed.
Print Assumptions C25_covered.

(** A push that is not redundant stores the proof, drops the proofs it contains,
    then evicts the shortest prefix of the first-insertion queue that brings the
    pool under its capacity; all else stays. *)
Theorem C25_push ad_hash cap ops bs b d p b' :
  pool_run ad_hash (buf_new cap) ops bs b ->
  pool_step ad_hash b (Push d p) = Ok b' ->
  (b' = b /\ exists q, q ∈ proofs_of b (ad_hash d) /\ covered (pr_bits p) (pr_bits q)) \/
  (forall q, q ∈ proofs_of b (ad_hash d) -> ~ covered (pr_bits p) (pr_bits q)) /\
  exists k e,
    let queue := if decide (ad_hash d ∈ bf_order b) then bf_order b else bf_order b ++ [ad_hash d] in
    let data := <[ad_hash d := e]> (bf_data b) in
    bf_order b' = drop k queue /\
    bf_data b' = without (take k queue) data /\
    (forall j, (j < k)%nat ->
       cap < lenN (stored_proofs (mkBuf (without (take j queue) data) [] cap 0))) /\
    pe_data e = default d (pe_data <$> bf_data b !! ad_hash d) /\
    (forall q, q ∈ pe_proofs e <->
       q = p \/ q ∈ proofs_of b (ad_hash d) /\ ~ covered (pr_bits q) (pr_bits p)).
Proof. exact (C25_push_pf ad_hash cap ops bs b d p b'). Qed.
Print Assumptions C25_push.

(** Draining returns every stored proof once, entry by entry in queue order, and
    leaves an empty pool; pruning removes exactly the entries whose target is
    finalized. *)
Theorem C25_drain_prune ad_hash cap ops bs b fin :
  pool_run ad_hash (buf_new cap) ops bs b ->
  payload_drain b = (buf_new cap,
    concat (map (fun r => map (pair (default (mkAD 0 (mkCp 0 0) (mkCp 0 0) (mkCp 0 0)) (pe_data <$> bf_data b !! r)))
                              (proofs_of b r)) (bf_order b))) /\
  exists b' n, payload_prune fin b = Ok (b', n) /\
    (forall r e, bf_data b' !! r = Some e <-> bf_data b !! r = Some e /\ fin < cp_slot (ad_target (pe_data e))) /\
    sublist (bf_order b') (bf_order b).
Proof. exact (C25_drain_prune_pf ad_hash cap ops bs b fin). Qed.
Print Assumptions C25_drain_prune.

(** Capacity 3: the proof {0} is absorbed by {0,1}; {2} comes in beside it; the
    fourth proof, for other data, evicts the older entry. *)
Definition pd (n : N) : AttestationData := mkAD n (mkCp 0 0) (mkCp 0 n) (mkCp 0 0).
Definition ex_pool (ops : list pool_op) : option (list (H256 * list Proof_) * N) :=
  match fold_left (fun acc o => let! b := acc in pool_step ad_slot b o) ops (Ok (buf_new 3)) with
  | Ok b => Some (map (fun r => (r, proofs_of b r)) (bf_order b), bf_total b)
  | _ => None
  end.
Example C25_example :
  ex_pool [Push (pd 5) (mkProof [true] 1); Push (pd 5) (mkProof [true; true] 2); Push (pd 5) (mkProof [true] 3);
           Push (pd 5) (mkProof [false; false; true] 4); Push (pd 7) (mkProof [true] 5)]
  = Some ([(5, [mkProof [true; true] 2; mkProof [false; false; true] 4]); (7, [mkProof [true] 5])], 3) /\
  ex_pool [Push (pd 5) (mkProof [true; true] 2); Push (pd 5) (mkProof [false; false; true] 4);
           Push (pd 7) (mkProof [true] 5); Push (pd 8) (mkProof [true] 6)]
  = Some ([(7, [mkProof [true] 5]); (8, [mkProof [true] 6])], 2).
Proof. split; vm_compute; reflexivity. Qed.

(** ** C26 the gossip-signature pool *)
Theorem C26_runs ad_hash cap ops : exists b, sig_run ad_hash (buf_new cap) ops b.
Proof. exact (sig_run_total ad_hash (buf_new cap) ops (sigs_new_ok ad_hash cap)). Qed.
Print Assumptions C26_runs.

(** Counter, bound, no empty groups, and at most one signature per validator and
    data, the one inserted last. *)
Theorem C26_bounded ad_hash cap ops b :
  sig_run ad_hash (buf_new cap) ops b ->
  bf_total b = lenN (stored_sigs b) /\
  lenN (stored_sigs b) <= cap /\
  NoDup (bf_order b) /\
  (forall r, r ∈ bf_order b <-> exists v s, sig_of b r v = Some s) /\
  (forall r v s, sig_of b r v = Some s -> last_inserted ad_hash ops r v None = Some s).
Proof. exact (C26_bounded_pf ad_hash cap ops b). Qed.
Print Assumptions C26_bounded.

(** Inserting evicts whole groups, oldest first, and only while over capacity;
    everything else stays. *)
Theorem C26_insert ad_hash cap ops b d v sig b' :
  sig_run ad_hash (buf_new cap) ops b ->
  sig_step ad_hash b (SInsert d v sig) = Ok b' ->
  exists k,
    let queue := if decide (ad_hash d ∈ bf_order b) then bf_order b else bf_order b ++ [ad_hash d] in
    bf_order b' = drop k queue /\
    (forall r w, sig_of b' r w =
       if decide (r ∈ take k queue) then None
       else if decide (r = ad_hash d /\ w = v) then Some sig else sig_of b r w) /\
    (forall j, (j < k)%nat -> exists b1 : Buf GossipEntry,
       cap < lenN (stored_sigs b1) /\
       forall r w, sig_of b1 r w =
         if decide (r ∈ take j queue) then None
         else if decide (r = ad_hash d /\ w = v) then Some sig else sig_of b r w).
Proof. exact (C26_insert_pf ad_hash cap ops b d v sig b'). Qed.
Print Assumptions C26_insert.

(** Deletion removes exactly the named signatures, pruning exactly the groups of
    finalized slots. *)
Theorem C26_delete_prune ad_hash cap ops b keys fin :
  sig_run ad_hash (buf_new cap) ops b ->
  (exists b', gossip_delete b keys = Ok b' /\
     forall r v, sig_of b' r v = if decide ((v, r) ∈ keys) then None else sig_of b r v) /\
  (exists b' n, gossip_prune fin b = Ok (b', n) /\
     forall r e, bf_data b' !! r = Some e <-> bf_data b !! r = Some e /\ fin < ad_slot (ge_data e)).
Proof. exact (C26_delete_prune_pf ad_hash cap ops b keys fin). Qed.
Print Assumptions C26_delete_prune.

Definition ex_sigs (ops : list sig_op) : option (list (H256 * list (N * N)) * N) :=
  match fold_left (fun acc o => let! b := acc in sig_step ad_slot b o) ops (Ok (buf_new 3)) with
  | Ok b => Some (map (fun r => (r, default [] ((fun e => map_to_list (ge_sigs e)) <$> bf_data b !! r))) (bf_order b), bf_total b)
  | _ => None
  end.
Example C26_example :
  ex_sigs [SInsert (pd 5) 0 10; SInsert (pd 5) 1 11; SInsert (pd 5) 0 12; SInsert (pd 6) 0 13]
  = Some ([(5, [(0, 12); (1, 11)]); (6, [(0, 13)])], 3) /\
  ex_sigs [SInsert (pd 5) 0 10; SInsert (pd 5) 1 11; SInsert (pd 6) 0 13; SInsert (pd 7) 0 14]
  = Some ([(6, [(0, 13)]); (7, [(0, 14)])], 2) /\
  ex_sigs [SInsert (pd 5) 0 10; SInsert (pd 6) 1 11; SDelete [(0, 5); (9, 6)]] = Some ([(6, [(1, 11)])], 1) /\
  ex_sigs [SInsert (pd 5) 0 10; SInsert (pd 6) 1 11; SPrune 5] = Some ([(6, [(1, 11)])], 1).
Proof. repeat split; vm_compute; reflexivity. Qed.
