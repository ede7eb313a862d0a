(** Vocabulary for the properties of the aggregation of votes. *)
From Verif Require Export Agg BuilderSpec.

(** The validator's key can be used. *)
Definition has_key (E : Env) (vals : list Validator) (v k : N) : Prop :=
  exists x, vals !! N.to_nat v = Some x /\ v_att_key x = k /\ e_key_ok E k = true.

(** [sel] is chosen from [l] when [seed] and the participants of [pre] are covered
    already: entries of [l], none twice; each adds a validator, and no entry of [l]
    would have added more. *)
Record greedy_from_list (seed : N -> Prop) (pre l sel : list Proof_) : Prop := {
  gf_from : exists rest, l ≡ₚ sel ++ rest;
  gf_adds : forall k p, sel !! k = Some p -> exists v, ~ seed v /\ adds (pre ++ take k sel) p v;
  gf_best : forall k p q n m, sel !! k = Some p -> q ∈ l ->
    counts n (fun v => ~ seed v /\ adds (pre ++ take k sel) q v) ->
    counts m (fun v => ~ seed v /\ adds (pre ++ take k sel) p v) -> n <= m }.
(** Nothing in [l] adds to [seed] and [sel]. *)
Definition exhausted (seed : N -> Prop) (sel l : list Proof_) : Prop :=
  forall p v, p ∈ l -> takes_part v p -> seed v \/ covered_by sel v.

(** A job for data [d]: what it may contain. *)
Record good_job (E : Env) (vals : list Validator) (d : AttestationData) (sigs : list (N * N))
    (proofs : list Proof_) (j : Job) : Prop := {
  (** the data and the children: usable aggregates of the pool, at most two *)
  gj_data : jb_data j = d;
  gj_children : exists ps, (forall p, p ∈ ps -> p ∈ proofs /\ forall v, takes_part v p -> exists k, has_key E vals v k) /\
    jb_children j = map (fun p => (keys_of vals (pr_bits p), pr_bytes p)) ps /\
    (forall v, v ∈ jb_child_ids j <-> covered_by ps v);
  gj_few : (length (jb_children j) <= 2)%nat;
  (** signatures with their signer and key, no signer twice nor in a child *)
  gj_raw : forall i v, jb_raw_ids j !! i = Some v -> exists k s,
    jb_raw_keys j !! i = Some k /\ jb_raw_sigs j !! i = Some s /\ (v, s) ∈ sigs /\ has_key E vals v k;
  gj_lens : length (jb_raw_keys j) = length (jb_raw_ids j) /\ length (jb_raw_sigs j) = length (jb_raw_ids j);
  gj_once : NoDup (jb_raw_ids j);
  gj_apart : forall v, v ∈ jb_raw_ids j -> v ∉ jb_child_ids j;
  (** something to combine *)
  gj_enough : (2 <= length (jb_raw_ids j) + length (jb_children j))%nat;
  (** no usable signature is left out; all are to be deleted *)
  gj_all : forall v s k, (v, s) ∈ sigs -> has_key E vals v k -> v ∈ jb_raw_ids j \/ v ∈ jb_child_ids j;
  gj_delete : forall v r, (v, r) ∈ jb_delete j <-> r = e_data E d /\ exists s, (v, s) ∈ sigs }.

(** The contents of a node's pools in some order. *)
Definition in_some_order (n : Node) (groups : list (H256 * AttestationData * list (N * N)))
    (keys : list (H256 * AttestationData)) : Prop :=
  (exists es, es ≡ₚ map_to_list (bf_data (nd_gossip n)) /\
     Forall2 (fun e g => g.1.1 = e.1 /\ g.1.2 = ge_data e.2 /\ g.2 ≡ₚ map_to_list (ge_sigs e.2)) es groups) /\
  keys ≡ₚ map (fun e : H256 * PayloadEntry => (e.1, pe_data e.2)) (map_to_list (bf_data (nd_new n))).

(** The provers are sound: from valid inputs, no signer twice and none both alone
    and in a child, they make valid aggregates or fail. *)
Record sound_prover (E : Env) (P : Prover) (P2 : Prover2) : Prop := {
  s2_mixed : forall vals (l : list Proof_) (raw : list (N * N * N)) bits msg slot bytes,
    (forall p, p ∈ l -> (forall v, takes_part v p -> v < lenN vals) /\
       e_agg_valid E (pr_bytes p) (keys_of vals (pr_bits p)) msg slot = true) ->
    (forall v k s, (v, k, s) ∈ raw -> has_key E vals v k /\ e_sig_valid E k slot msg s = true) ->
    NoDup (map (fun x => x.1.1) raw) -> (forall v k s, (v, k, s) ∈ raw -> ~ covered_by l v) ->
    (forall v, bits !! N.to_nat v = Some true <-> covered_by l v \/ exists k s, (v, k, s) ∈ raw) ->
    pv_mixed P2 (map (fun p => (keys_of vals (pr_bits p), pr_bytes p)) l)
      (map (fun x => x.1.2) raw) (map snd raw) msg slot = Some bytes ->
    e_agg_valid E bytes (keys_of vals bits) msg slot = true;
  s2_aggregate : forall vals (l : list Proof_) bits msg slot bytes,
    (forall p, p ∈ l -> (forall v, takes_part v p -> v < lenN vals) /\
       e_agg_valid E (pr_bytes p) (keys_of vals (pr_bits p)) msg slot = true) ->
    is_union bits l ->
    pv_aggregate P (map (fun p => (keys_of vals (pr_bits p), pr_bytes p)) l) msg slot = Some bytes ->
    e_agg_valid E bytes (keys_of vals bits) msg slot = true;
  s2_split : forall bytes keylists msgs msg bytes',
    e_block_valid E bytes keylists msgs = true -> length keylists = length msgs ->
    pv_split P2 bytes keylists msg = Some bytes' ->
    exists i keys slot, keylists !! i = Some keys /\ msgs !! i = Some (msg, slot) /\
      (forall j slot', msgs !! j = Some (msg, slot') -> j = i) /\
      e_agg_valid E bytes' keys msg slot = true }.

(** The node holds aggregate [p] for data [d], pending or accepted. *)
Definition stored_proof (E : Env) (n : Node) (d : AttestationData) (p : Proof_) : Prop :=
  exists e, (bf_data (nd_new n) !! e_data E d = Some e \/ bf_data (nd_known n) !! e_data E d = Some e) /\ p ∈ pe_proofs e.

(** *** Re-aggregation *)
(** The node holds an aggregate for data [d] with [v] in it; the validators that
    attestation [a] of a block would add. *)
Definition has_vote (E : Env) (n : Node) (d : AttestationData) (v : N) : Prop :=
  exists p, stored_proof E n d p /\ takes_part v p.
Definition unseen (E : Env) (n : Node) (a : AggAtt) (v : N) : Prop := votes_in v a /\ ~ has_vote E n (at_data a) v.
(** Attestation [i] of a block adds [k] validators and its target is not yet justified. *)
Definition useful (E : Env) (n : Node) (atts : list AggAtt) (i : nat) (k : N) : Prop :=
  exists a, atts !! i = Some a /\ 0 < k /\ counts k (unseen E n a) /\
    cp_slot (db_just (nd_db n)) < cp_slot (ad_target (at_data a)).
(** The choice [l] (positions with the number of validators they add). *)
Record best_four (E : Env) (n : Node) (atts : list AggAtt) (l : list (nat * N)) : Prop := {
  b4_four : (length l <= 4)%nat;
  b4_useful : forall i k, (i, k) ∈ l -> useful E n atts i k;
  (** greatest first, among equals the earlier *)
  b4_sorted : StronglySorted (fun x y : nat * N => y.2 < x.2 \/ (y.2 = x.2 /\ (x.1 < y.1)%nat)) l;
  (** what is left out is not better than any of the four chosen *)
  b4_best : forall i k, useful E n atts i k -> (i, k) ∈ l \/
    (length l = 4%nat /\ forall x, x ∈ l -> k < x.2 \/ (k = x.2 /\ (x.1 < i)%nat)) }.

(** What is recovered: for some of the chosen attestations [cs], in their order, an
    aggregate with the participants in the block and those the node had already. *)
Definition recovered (E : Env) (n : Node) (atts : list AggAtt) (cs : list (nat * N)) (l : list (AttestationData * Proof_)) : Prop :=
  exists is, sublist is (map fst cs) /\
    Forall2 (fun i (x : AttestationData * Proof_) => exists a, atts !! i = Some a /\ x.1 = at_data a /\
       forall v, takes_part v x.2 <-> votes_in v a \/ has_vote E n (at_data a) v) is l.

(** The provers never fail. *)
Definition never_fails (P : Prover) (P2 : Prover2) : Prop :=
  (forall bytes keylists msg, pv_split P2 bytes keylists msg <> None) /\
  (forall l msg slot, pv_aggregate P l msg slot <> None).

(** Nodes all of whose aggregates come from the network or from their own
    aggregation and re-aggregation. *)
Section Own.
  Context (E : Env) (P : Prover) (P2 : Prover2).
  Inductive own_reachable (gt : N) (vals : list Validator) : Node -> Prop :=
  | or_start a n : valid_anchor E gt vals a -> started E a n -> own_reachable gt vals n
  | or_event n e n' : own_reachable gt vals n ->
      (match e with ev_local _ _ => False | _ => True end) ->
      node_step E n e = Ok n' -> own_reachable gt vals n'
  (** a result of a worker: its job was prepared in some earlier state *)
  | or_aggregate n n0 iter_raw groups keys cur max_jobs js j d p ps del n' :
      own_reachable gt vals n -> own_reachable gt vals n0 ->
      (forall l, iter_raw l ≡ₚ l) -> in_some_order n0 groups keys ->
      snapshot_aggregation_inputs E iter_raw n0 groups keys cur max_jobs = Ok js -> j ∈ js ->
      aggregate_job E P2 j = Ok (Some (d, p, ps, del)) ->
      apply_aggregated_group E n d p del = Ok n' -> own_reachable gt vals n'
  (** after the import of a block that was not stored *)
  | or_reaggregate n0 n sb l n' :
      own_reachable gt vals n0 ->
      has_state (tab n0) (block_root (e_header E) (e_body E) (sb_block sb)) = false ->
      on_block E n0 sb = Ok n -> reaggregate_from_block E P P2 n sb = Ok l ->
      insert_new_batch E n l = Ok n' -> own_reachable gt vals n'.
End Own.
