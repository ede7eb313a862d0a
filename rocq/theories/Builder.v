(** Model of block building: crates/blockchain/src/block_builder.rs,
    [produce_block_with_signatures] of crates/blockchain/src/store.rs and the
    assembly of the signed block in crates/blockchain/src/lib.rs.

    Not modelled: metrics, logs and timing, the wait before publication. *)
From Verif Require Export Node.

(** block_builder.rs:49-59 *)
Record ProposerConfig := mkPC { pc_aggregate : bool; pc_max : N }.

(** The [StoreError]s of block building. *)
Inductive BuildError :=
| BE_validator | BE_pubkey | BE_aggregation | BE_no_head_state | BE_not_proposer
| BE_transition (e : StfError).

(** block_builder.rs:870-872 *)
Definition is_genesis_self_vote (d : AttestationData) : bool :=
  (cp_slot (ad_source d) =? 0) && (cp_slot (ad_target d) =? 0).

(** [SingleMessageAggregate::participant_indices] *)
Definition indices (p : Proof_) : list N := validator_indices (pr_bits p).
Definition voters (p : Proof_) : gset N := list_to_set (indices p).

(** *** Projection of the post-state *)
(** block_builder.rs:313-317.  Hash maps and sets whose iteration order is not
    observable. *)
Record Projected := mkProj {
  pj_slots : list bool;
  pj_fin : N;
  pj_votes : gmap H256 (gset N) }.

(** block_builder.rs:578-592.  Bit [i * n + j] is bit [j] of the [i]-th group of
    [n] bits; the groups are consumed one by one. *)
Fixpoint running_votes (n : nat) (roots : list H256) (votes : list bool)
    (acc : gmap H256 (gset N)) : gmap H256 (gset N) :=
  match roots with
  | [] => acc
  | r :: roots' =>
      running_votes n roots' (drop n votes)
        (<[r := list_to_set (validator_indices (take n votes))]> acc)
  end.
Definition build_running_votes (s : State) : gmap H256 (gset N) :=
  running_votes (length (s_validators s)) (s_jroots s) (s_jvals s) ∅.

(** block_builder.rs:325-331 *)
Definition from_head_state (s : State) : Projected :=
  mkProj (s_jslots s) (cp_slot (s_finalized s)) (build_running_votes s).

(** block_builder.rs:500-511, in the derived order *)
Inductive Tier := TFinalize | TJustify | TBuild.
Definition tier_num (t : Tier) : N := match t with TFinalize => 1 | TJustify => 2 | TBuild => 3 end.

(** block_builder.rs:338-372 [advance] *)
Definition advance (pj : Projected) (t : Tier) (d : AttestationData) (new : gset N) : stf Projected :=
  let root := cp_root (ad_target d) in
  let votes := <[root := default ∅ (pj_votes pj !! root) ∪ new]> (pj_votes pj) in
  match t with
  | TBuild => Ok (mkProj (pj_slots pj) (pj_fin pj) votes)
  | _ =>
      let! js := extend_to_slot (pj_slots pj) (pj_fin pj) (cp_slot (ad_target d)) in
      let! js := set_justified js (pj_fin pj) (cp_slot (ad_target d)) in
      let votes := delete root votes in
      Ok (match t with
          | TFinalize =>
              mkProj (shift_window js (cp_slot (ad_source d) - pj_fin pj)) (cp_slot (ad_source d)) votes
          | _ => mkProj js (pj_fin pj) votes
          end)
  end.

(** block_builder.rs:531-540 *)
Record EntryScore := mkScore { sc_tier : Tier; sc_new : N; sc_target : N; sc_slot : N }.

(** block_builder.rs:389-434 [score_entry] *)
Definition score_entry (pj : Projected) (d : AttestationData) (coverage : gset N) (n : N)
  : option (EntryScore * gset N) :=
  let prior := default ∅ (pj_votes pj !! cp_root (ad_target d)) in
  let new := coverage ∖ prior in
  if bool_decide (new = ∅) then None
  else
    let total := N.of_nat (size prior + size new) in
    let crosses := 2 * n <=? 3 * total in
    let finalizes := crosses && (pj_fin pj <? cp_slot (ad_source d)) &&
      negb (any_justifiable (N.to_nat (cp_slot (ad_target d) - (cp_slot (ad_source d) + 1)))
              (cp_slot (ad_source d) + 1) (pj_fin pj)) in
    let tier := if is_genesis_self_vote d || negb crosses then TBuild
                else if finalizes then TFinalize else TJustify in
    Some (mkScore tier (N.of_nat (size new)) (cp_slot (ad_target d)) (ad_slot d), new).

(** [is_slot_justified(..).unwrap_or(false)] *)
Definition justified_or_false (slots : list bool) (fin slot : N) : bool :=
  match is_slot_justified slots fin slot with Ok b => b | _ => false end.

(** block_builder.rs:449-497 [entry_passes_filters]; the reasons are only traced. *)
Definition passes_filters (pj : Projected) (d : AttestationData) (known : list H256) (hist : list H256) : bool :=
  bool_decide (cp_root (ad_head d) ∈ known) &&
  justified_or_false (pj_slots pj) (pj_fin pj) (cp_slot (ad_source d)) &&
  attestation_data_matches_chain hist d &&
  (is_genesis_self_vote d || negb (cp_slot (ad_target d) <=? cp_slot (ad_source d))) &&
  (is_genesis_self_vote d || negb (justified_or_false (pj_slots pj) (pj_fin pj) (cp_slot (ad_target d)))) &&
  (is_genesis_self_vote d || slot_is_justifiable_after (cp_slot (ad_target d)) (pj_fin pj)).

(** block_builder.rs:546, 552-573: tier, three priorities (larger is better), root *)
Definition ordering_key (s : EntryScore) (root : H256) : N * N * N * N * H256 :=
  match sc_tier s with
  | TBuild => (tier_num (sc_tier s), sc_new s, sc_target s, sc_slot s, root)
  | _ => (tier_num (sc_tier s), sc_target s, sc_slot s, sc_new s, root)
  end.
(** The derived order of the tuple, priorities wrapped in [Reverse]. *)
Definition key_lt (a b : N * N * N * N * H256) : bool :=
  let '(t, x, y, z, r) := a in
  let '(t', x', y', z', r') := b in
  (t <? t') || ((t =? t') &&
  ((x' <? x) || ((x =? x') &&
  ((y' <? y) || ((y =? y') &&
  ((z' <? z) || ((z =? z') && (r <? r')))))))).

(** The pool handed to the builder: data root and entry, in the hash map's
    iteration order. *)
Notation Payloads := (list (H256 * PayloadEntry)) (only parsing).
Notation Pick := (H256 * PayloadEntry * EntryScore * gset N)%type (only parsing).

(** block_builder.rs:263-267 *)
Definition coverage (e : PayloadEntry) : gset N := list_to_set (concat (map indices (pe_proofs e))).

(** block_builder.rs:253-293: one candidate of the scan *)
Definition consider (pj : Projected) (done : list H256) (known hist : list H256) (n : N)
    (best : option Pick) (c : H256 * PayloadEntry) : option Pick :=
  if bool_decide (c.1 ∈ done) then best
  else if negb (passes_filters pj (pe_data c.2) known hist) then best
  else
    match score_entry pj (pe_data c.2) (coverage c.2) n with
    | None => best
    | Some (sc, new) =>
        match best with
        | None => Some (c.1, c.2, sc, new)
        | Some (r, _, sc', _) =>
            if key_lt (ordering_key sc c.1) (ordering_key sc' r) then Some (c.1, c.2, sc, new) else best
        end
    end.
(** block_builder.rs:253-293 [pick_best_candidate].  The caller's second look-up
    of the data root finds the same entry. *)
Definition pick_best_candidate (pj : Projected) (done : list H256) (known hist : list H256) (n : N)
    (pool : Payloads) : option Pick :=
  fold_left (consider pj done known hist n) pool None.

(** *** Greedy choice of proofs *)
(** Number of participants outside [cov]. *)
Definition count_new (cov : gset N) (p : Proof_) : N :=
  lenN (List.filter (fun v => negb (bool_decide (v ∈ cov))) (indices p)).
(** [Iterator::max_by_key]: the last of the greatest. *)
Fixpoint last_max {A} (f : A -> N) (l : list A) : option A :=
  match l with
  | [] => None
  | x :: l' =>
      match last_max f l' with
      | None => Some x
      | Some y => if f y <? f x then Some x else Some y
      end
  end.

Section Greedy.
  (** Iteration order of the set of remaining indices, in each round. *)
  Context (iter : nat -> list nat -> list nat).

  (** block_builder.rs:799-851: the loop of [extend_proofs_greedily]; each round
      removes an index, so [fuel] is the number of remaining ones. *)
  Fixpoint greedy_loop (fuel : nat) (proofs : list Proof_) (cov : gset N) (remaining : list nat) : list Proof_ :=
    match fuel with
    | O => []
    | S f =>
        let count i := match proofs !! i with Some p => count_new cov p | None => 0 end in
        match last_max count (iter f remaining) with
        | None => []
        | Some i =>
            match proofs !! i with
            | None => []
            | Some p =>
                if count i =? 0 then []
                else p :: greedy_loop f proofs (cov ∪ voters p) (List.filter (fun j => negb (j =? i)%nat) remaining)
            end
        end
    end.
  Definition greedy_proofs (proofs : list Proof_) : list Proof_ :=
    greedy_loop (length proofs) proofs ∅ (seq 0 (length proofs)).
End Greedy.

(** *** One entry per attestation data *)
Notation Entry := (AggAtt * Proof_)%type (only parsing).

(** block_builder.rs:611-623, 726-738: the data in order of first occurrence and
    the entries of each. *)
Definition data_order (l : list Entry) : list AttestationData :=
  fold_left (fun acc e => if bool_decide (at_data e.1 ∈ acc) then acc else acc ++ [at_data e.1]) l [].
Definition group (d : AttestationData) (l : list Entry) : list Entry :=
  List.filter (fun e => bool_decide (at_data e.1 = d)) l.

(** block_builder.rs:854-866; the union of two bitlists fits where they fit. *)
Fixpoint union_bits (a b : Bits) : Bits :=
  match a, b with
  | [], _ => b
  | _, [] => a
  | x :: a', y :: b' => (x || y) :: union_bits a' b'
  end.

(** block_builder.rs:746-781: the winner of a group.  The index breaks ties, so
    the first of the greatest (new voters, participants). *)
Definition marginal (prior claimed : gset N) (p : Proof_) : N :=
  lenN (List.filter (fun v => negb (bool_decide (v ∈ prior)) && negb (bool_decide (v ∈ claimed))) (indices p)).
Fixpoint first_best (key : Entry -> N * N) (best : Entry) (l : list Entry) : Entry :=
  match l with
  | [] => best
  | e :: l' =>
      let better := ((key best).1 <? (key e).1) || (((key best).1 =? (key e).1) && ((key best).2 <? (key e).2)) in
      first_best key (if better then e else best) l'
  end.
Fixpoint keep_loop (running claimed : gmap H256 (gset N)) (l : list Entry) (order : list AttestationData)
  : res BuildError (list Entry) :=
  match order with
  | [] => Ok []
  | d :: order' =>
      let root := cp_root (ad_target d) in
      let prior := default ∅ (running !! root) in
      let cl := default ∅ (claimed !! root) in
      match group d l with
      | [] => Panic
      | e :: es =>
          let best := first_best (fun e => (marginal prior cl e.2, count_true (at_bits e.1))) e es in
          let! r := keep_loop running (<[root := cl ∪ voters best.2]> claimed) l order' in
          Ok (best :: r)
      end
  end.
(** block_builder.rs:712-784 *)
Definition keep_best_proof_per_data (l : list Entry) (running : gmap H256 (gset N)) : res BuildError (list Entry) :=
  let order := data_order l in
  if (length order =? length l)%nat then Ok l else keep_loop running ∅ l order.

(** Proving: [aggregate_proofs], [aggregate_signatures] of one signature,
    [merge_type_1s_into_type_2], signing with a proposal key. *)
Record Prover := mkProver {
  pv_aggregate : list (list N * N) -> H256 -> N -> option N;
  pv_sign : N -> N -> H256 -> option N;
  pv_wrap : N -> N -> H256 -> N -> option N;
  pv_merge : list (list N * N) -> option N }.

Section Build.
  Context (E : Env) (P : Prover) (iter : AttestationData -> nat -> list nat -> list nat).

  (** block_builder.rs:659-676: the keys of one proof's participants *)
  Definition proof_keys (vals : list Validator) (p : Proof_) : res BuildError (list N) :=
    match att_keys vals (indices p) with
    | None => Err BE_validator
    | Some keys => if negb (forallb (e_key_ok E) keys) then Err BE_pubkey else Ok keys
    end.
  Fixpoint children_of (vals : list Validator) (l : list Entry) : res BuildError (list (list N * N)) :=
    match l with
    | [] => Ok []
    | e :: l' =>
        let! k := proof_keys vals e.2 in
        let! r := children_of vals l' in
        Ok ((k, pr_bytes e.2) :: r)
    end.
  (** block_builder.rs:637-696: one group *)
  Definition compact_group (vals : list Validator) (d : AttestationData) (g : list Entry) : res BuildError Entry :=
    match g with
    | [] => Panic
    | [e] => Ok e
    | e :: es =>
        let bits := fold_left (fun acc x => union_bits acc (at_bits x.1)) es (at_bits e.1) in
        let! cs := children_of vals g in
        if two32 <=? ad_slot d then Panic
        else match pv_aggregate P cs (e_data E d) (ad_slot d) with
             | None => Err BE_aggregation
             | Some bytes => Ok (mkAtt bits d, mkProof bits bytes)
             end
    end.
  Fixpoint compact_loop (vals : list Validator) (l : list Entry) (order : list AttestationData)
    : res BuildError (list Entry) :=
    match order with
    | [] => Ok []
    | d :: order' =>
        let! e := compact_group vals d (group d l) in
        let! r := compact_loop vals l order' in
        Ok (e :: r)
    end.
  (** block_builder.rs:600-700 *)
  Definition compact_attestations (l : list Entry) (vals : list Validator) : res BuildError (list Entry) :=
    let order := data_order l in
    if (length order =? length l)%nat then Ok l else compact_loop vals l order.

  (** block_builder.rs:208-241: the rounds of [select_attestations] *)
  Fixpoint select_loop (rounds : nat) (pj : Projected) (done : list H256) (known hist : list H256) (n : N)
      (pool : Payloads) : res BuildError (list Entry) :=
    match rounds with
    | O => Ok []
    | S k =>
        match pick_best_candidate pj done known hist n pool with
        | None => Ok []
        | Some (root, e, sc, new) =>
            let chosen := map (fun p => (mkAtt (pr_bits p) (pe_data e), p))
                              (greedy_proofs (iter (pe_data e)) (pe_proofs e)) in
            match advance pj (sc_tier sc) (pe_data e) new with
            | Ok pj' =>
                let! r := select_loop k pj' (root :: done) known hist n pool in
                Ok (chosen ++ r)
            | Err _ | Panic => Panic
            end
        end
    end.
  (** block_builder.rs:187-193: the chain up to the slot before the block *)
  Definition extended_hist (s : State) (slot : N) (parent_root : H256) : list H256 :=
    s_hist s ++ parent_root :: replicate (N.to_nat (slot - h_slot (s_header s) - 1)) ZERO.
  (** block_builder.rs:171-244 *)
  Definition select_attestations (s : State) (slot : N) (parent_root : H256) (known : list H256)
      (pool : Payloads) (max : N) : res BuildError (list Entry) :=
    match pool with
    | [] => Ok []
    | _ => select_loop (N.to_nat (N.min max MAX_ATTESTATIONS_DATA)) (from_head_state s) [] known
             (extended_hist s slot parent_root) (lenN (s_validators s)) pool
    end.

  (** block_builder.rs:85-158; the block, its proofs and the post-state's
      checkpoints. *)
  Definition build_block (s : State) (slot proposer : N) (parent_root : H256) (known : list H256)
      (pool : Payloads) (pc : ProposerConfig)
    : res BuildError (Block * list Proof_ * (Checkpoint * Checkpoint)) :=
    let! selected := select_attestations s slot parent_root known pool (pc_max pc) in
    let! compacted := (if pc_aggregate pc then compact_attestations selected (s_validators s)
                       else keep_best_proof_per_data selected (build_running_votes s)) in
    let atts := map fst compacted in
    if 4096 <? lenN atts then Panic
    else
      let b0 := mkBlock slot proposer parent_root ZERO atts in
      let! post :=
        match (let! s1 := process_slots (e_state E) s slot in process_block (e_header E) (e_body E) s1 b0) with
        | Ok post => Ok post | Err e => Err (BE_transition e) | Panic => Panic
        end in
      Ok (mkBlock slot proposer parent_root (e_state E post) atts, map snd compacted,
          (s_justified post, s_finalized post)).

  (** store.rs:904-972 after [get_proposal_head]; the known payloads in some
      iteration order. *)
  Definition produce_block (n : Node) (slot vid : N) (pool : Payloads) (pc : ProposerConfig)
    : res BuildError (Block * list Proof_ * (Checkpoint * Checkpoint)) :=
    let head := db_head (nd_db n) in
    let! o := expect (read_state (tab n) head) in
    match o with
    | None => Err BE_no_head_state
    | Some s =>
        if is_proposer vid slot (lenN (s_validators s))
        then build_block s slot vid head (map (fun k : N * H256 * H256 => k.1.2) (map_to_list (t_live (tab n)))) pool pc
        else Err BE_not_proposer
    end.

  (** lib.rs:846-872: keys and bytes of each proof *)
  Fixpoint merge_inputs (vals : list Validator) (l : list Proof_) : option (list (list N * N)) :=
    match l with
    | [] => Some []
    | p :: l' =>
        match proof_keys vals p, merge_inputs vals l' with
        | Ok k, Some r => Some ((k, pr_bytes p) :: r)
        | _, _ => None
        end
    end.
  (** lib.rs:767-899: sign, wrap, merge; [None] wherever the code logs and returns.
      [slot as u32] truncates.  [vals]: the registry of the head state. *)
  Definition assemble (vals : list Validator) (slot vid : N) (b : Block) (proofs : list Proof_) : option SignedBlock :=
    let root := block_root (e_header E) (e_body E) b in
    match pv_sign P vid (slot mod two32) root, getN vals vid with
    | Some sig, Some v =>
        if negb (e_key_ok E (v_prop_key v)) then None
        else if negb (e_sig_ok E sig) then None
        else match pv_wrap P (v_prop_key v) sig root (slot mod two32), merge_inputs vals proofs with
             | Some w, Some l =>
                 match pv_merge P (l ++ [([v_prop_key v], w)]) with
                 | Some bytes => Some (mkSB b bytes)
                 | None => None
                 end
             | _, _ => None
             end
    | _, _ => None
    end.
End Build.
