(** Vocabulary for the properties of block building. *)
From Verif Require Export Builder NodeSpec.

(** Validator [v] takes part in an aggregate; the validators covered by several. *)
Definition takes_part (v : N) (p : Proof_) : Prop := pr_bits p !! N.to_nat v = Some true.
Definition covered_by (l : list Proof_) (v : N) : Prop := exists p, p ∈ l /\ takes_part v p.
(** [v] would be newly covered by [p]. *)
Definition adds (l : list Proof_) (p : Proof_) (v : N) : Prop := takes_part v p /\ ~ covered_by l v.

(** Some order of the elements, whatever they are. *)
Definition an_order (iter : nat -> list nat -> list nat) : Prop := forall k l, iter k l ≡ₚ l.

(** The pool as a map: no data root twice, entries under the root of their data. *)
Record keyed (E : Env) (pool : list (H256 * PayloadEntry)) : Prop := {
  ky_once : NoDup (map fst pool);
  ky_root : forall r e, (r, e) ∈ pool -> r = e_data E (pe_data e) }.

(** The pool holds aggregate [p] for data [d]. *)
Definition pool_holds (pool : list (H256 * PayloadEntry)) (d : AttestationData) (p : Proof_) : Prop :=
  exists r e, (r, e) ∈ pool /\ pe_data e = d /\ p ∈ pe_proofs e.

(** An aggregate that verifies: at least one participant, all in the registry
    with usable keys, and the proof valid for their keys. *)
Definition keys_of (vals : list Validator) (bits : Bits) : list N :=
  omap (fun v => v_att_key <$> vals !! N.to_nat v) (validator_indices bits).
Record sound_proof (E : Env) (vals : list Validator) (d : AttestationData) (p : Proof_) : Prop := {
  sp_some : exists v, takes_part v p;
  sp_range : forall v, takes_part v p -> v < lenN vals;
  sp_keys : Forall (fun k => e_key_ok E k = true) (keys_of vals (pr_bits p));
  sp_slot : ad_slot d < two32;
  sp_valid : e_agg_valid E (pr_bytes p) (keys_of vals (pr_bits p)) (e_data E d) (ad_slot d) = true }.
Definition sound_pool (E : Env) (vals : list Validator) (pool : list (H256 * PayloadEntry)) : Prop :=
  forall d p, pool_holds pool d p -> sound_proof E vals d p.

(** [bits] marks exactly the validators covered by [l]. *)
Definition is_union (bits : Bits) (l : list Proof_) : Prop :=
  forall v, bits !! N.to_nat v = Some true <-> covered_by l v.

(** The prover does its job: valid aggregates combine into a valid aggregate of
    the union, valid parts merge into a valid block proof, and the proposer's own
    key signs and wraps. *)
Record complete_prover (E : Env) (P : Prover) : Prop := {
  cp_aggregate : forall vals (l : list Proof_) bits msg slot,
    (2 <= length l)%nat -> is_union bits l ->
    (forall p, p ∈ l -> (forall v, takes_part v p -> v < lenN vals) /\
       e_agg_valid E (pr_bytes p) (keys_of vals (pr_bits p)) msg slot = true) ->
    exists bytes, pv_aggregate P (map (fun p => (keys_of vals (pr_bits p), pr_bytes p)) l) msg slot = Some bytes /\
      e_agg_valid E bytes (keys_of vals bits) msg slot = true;
  cp_merge : forall (parts : list (list N * N)) msgs,
    Forall2 (fun x m => e_agg_valid E x.2 x.1 m.1 m.2 = true) parts msgs ->
    exists bytes, pv_merge P parts = Some bytes /\ e_block_valid E bytes (map fst parts) msgs = true }.
Definition can_sign (E : Env) (P : Prover) (vid key : N) : Prop :=
  e_key_ok E key = true /\
  forall slot root, exists sig w, pv_sign P vid slot root = Some sig /\ e_sig_ok E sig = true /\
    pv_wrap P key sig root slot = Some w /\ e_agg_valid E w [key] root slot = true.

(** What an attestation of a built block and its proof must be: the participants
    agree and are those of some aggregates of the pool for that data, at least one;
    with aggregation at the proposer all of the pool's, without it one aggregate
    as it is in the pool. *)
Record packed (pool : list (H256 * PayloadEntry)) (pc : ProposerConfig) (a : AggAtt) (p : Proof_) : Prop := {
  pa_bits : pr_bits p = at_bits a;
  pa_some : exists v, votes_in v a;
  pa_union : exists qs, (forall q, q ∈ qs -> pool_holds pool (at_data a) q) /\ is_union (at_bits a) qs;
  pa_all : pc_aggregate pc = true ->
    forall q v, pool_holds pool (at_data a) q -> takes_part v q -> votes_in v a;
  pa_one : pc_aggregate pc = false -> pool_holds pool (at_data a) p }.

(** Attestation data do not collide. *)
Definition inj_data (E : Env) : Prop := forall d d', e_data E d = e_data E d' -> d = d'.

(** Nodes reached from a valid anchor whose own aggregation, too, produced
    aggregates that verify; what comes from the network is arbitrary. *)
Definition sound_event (E : Env) (vals : list Validator) (e : node_event) : Prop :=
  match e with ev_local l _ => forall d p, (d, p) ∈ l -> sound_proof E vals d p | _ => True end.
Definition reachable_sound (E : Env) (gt : N) (vals : list Validator) (n : Node) : Prop :=
  exists a n0 es, valid_anchor E gt vals a /\ started E a n0 /\ node_run E n0 es n /\
    Forall (sound_event E vals) es.
