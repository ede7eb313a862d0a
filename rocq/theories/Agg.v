(** Model of the aggregation of votes: crates/blockchain/src/aggregation.rs and
    crates/blockchain/src/reaggregate.rs.

    Not modelled: metrics, logs, the worker thread with its cancellation and timing
    (sessions are in Actor.v). *)
From Verif Require Export Builder.
From stdpp Require Import sorting.
Local Open Scope N_scope.

(** aggregation.rs:578 *)
Definition MAX_AGGREGATION_CHILDREN : nat := 2.
(** aggregation.rs:175 *)
Definition MAX_AGGREGATION_JOBS : nat := 2.
(** reaggregate.rs:43 *)
Definition MAX_REAGGREGATIONS_PER_BLOCK : nat := 4.

(** [aggregate_mixed] of children (keys, bytes), raw keys and signatures, message
    and slot; [split_type_2_by_message] of a block proof, its key lists and a
    message. *)
Record Prover2 := mkProver2 {
  pv_mixed : list (list N * N) -> list N -> list N -> H256 -> N -> option N;
  pv_split : N -> list (list N) -> H256 -> option N }.

(** aggregation.rs:74-88; the slot is that of the data. *)
Record Job := mkJob {
  jb_data : AttestationData;
  jb_children : list (list N * N);
  jb_child_ids : list N;
  jb_raw_keys : list N;
  jb_raw_sigs : list N;
  jb_raw_ids : list N;
  jb_delete : list (N * H256) }.
(** aggregation.rs:96-103 *)
Definition jb_coverage (j : Job) : gset N := list_to_set (jb_raw_ids j ++ jb_child_ids j).

(** crates/storage/src/store.rs:232-238 [proofs_for_root] *)
Definition proofs_for_root (b : Buf PayloadEntry) (r : H256) : list Proof_ :=
  match bf_data b !! r with Some e => pe_proofs e | None => [] end.

(** *** Choice of children *)
(** aggregation.rs:606-631: the loop over one of the two proof sets.  Each round
    removes a proof, so [fuel] is their number. *)
Fixpoint select_set (fuel : nat) (sel : list Proof_) (cov : gset N) (remaining : list Proof_)
  : res unit (list Proof_ * gset N) :=
  if (MAX_AGGREGATION_CHILDREN <=? length sel)%nat then Ok (sel, cov)
  else
    match fuel, remaining with
    | S f, _ :: _ =>
        let count i := match remaining !! i with Some p => count_new cov p | None => 0 end in
        match last_max count (seq 0 (length remaining)) with
        | None => Panic
        | Some i =>
            match remaining !! i with
            | None => Panic
            | Some p =>
                if count i =? 0 then Ok (sel, cov)
                else
                  let! rest := swap_remove i remaining in
                  select_set f (sel ++ [p]) (cov ∪ voters p) rest
            end
        end
    | _, _ => Ok (sel, cov)
    end.
(** aggregation.rs:591-639; after a full first set the second adds nothing. *)
Definition select_proofs_greedily (new known : list Proof_) (seed : gset N) : res unit (list Proof_ * gset N) :=
  let! r := select_set (length new) [] seed new in
  select_set (length known) r.1 r.2 known.

Section Agg.
  Context (E : Env).
  (** Iteration order of a map of raw signatures. *)
  Context (iter_raw : list (N * (N * N)) -> list (N * (N * N))).

  (** aggregation.rs:427-437: resolved signatures by validator *)
  Definition usable_key (vals : list Validator) (v : N) : option N :=
    match getN vals v with
    | Some x => if e_key_ok E (v_att_key x) then Some (v_att_key x) else None
    | None => None
    end.
  Definition raw_by_id (vals : list Validator) (sigs : list (N * N)) : gmap N (N * N) :=
    fold_left (fun m s => match usable_key vals s.1 with Some k => <[s.1 := (k, s.2)]> m | None => m end) sigs ∅.

  (** aggregation.rs:489-518 *)
  Fixpoint resolve_child_pubkeys (vals : list Validator) (l : list Proof_) : list (list N * N) * list N :=
    match l with
    | [] => ([], [])
    | p :: l' =>
        let '(cs, ids) := resolve_child_pubkeys vals l' in
        let keys := omap (usable_key vals) (indices p) in
        if (length keys =? length (indices p))%nat then ((keys, pr_bytes p) :: cs, indices p ++ ids) else (cs, ids)
    end.

  (** aggregation.rs:420-484 *)
  Definition resolve_job (vals : list Validator) (d : AttestationData) (sigs : list (N * N))
      (new known : list Proof_) : res unit (option Job) :=
    let raw := raw_by_id vals sigs in
    let! sel := select_proofs_greedily new known (list_to_set (map fst (map_to_list raw))) in
    let '(cs, ids) := resolve_child_pubkeys vals sel.1 in
    let kept := List.filter (fun x : N * (N * N) => negb (bool_decide (x.1 ∈ ids))) (iter_raw (map_to_list raw)) in
    let raw_ids := map fst kept in
    if (length raw_ids =? 0)%nat && (length cs <? 2)%nat then Ok None
    else if (length cs =? 0)%nat && (length raw_ids <=? 1)%nat then Ok None
    else Ok (Some (mkJob d cs ids (map (fun x => x.2.1) kept) (map (fun x => x.2.2) kept) raw_ids
                         (map (fun s => (s.1, e_data E d)) sigs))).

  (** aggregation.rs:643-663; [with_length] fails above the registry limit. *)
  Definition bits_from_indices (l : list N) : res unit Bits :=
    match l with
    | [] => Ok []
    | _ =>
        let n := fold_right N.max 0 l + 1 in
        if VALIDATOR_REGISTRY_LIMIT <? n then Panic
        else Ok (map (fun i => bool_decide (N.of_nat i ∈ l)) (seq 0 (N.to_nat n)))
    end.

  (** [Vec::dedup] *)
  Fixpoint dedup (l : list N) : list N :=
    match l with
    | x :: ((y :: _) as l') => if x =? y then dedup l' else x :: dedup l'
    | _ => l
    end.

  (** aggregation.rs:524-560: data, aggregate, participants, signatures to delete *)
  Definition aggregate_job (P2 : Prover2) (j : Job)
    : res unit (option (AttestationData * Proof_ * list N * list (N * H256))) :=
    if (length (jb_raw_ids j) =? 0)%nat && (length (jb_children j) <? 2)%nat then Ok None
    else if two32 <=? ad_slot (jb_data j) then Panic
    else
      match pv_mixed P2 (jb_children j) (jb_raw_keys j) (jb_raw_sigs j) (e_data E (jb_data j)) (ad_slot (jb_data j)) with
      | None => Ok None
      | Some bytes =>
          let ps := dedup (merge_sort N.le (jb_raw_ids j ++ jb_child_ids j)) in
          let! bits := bits_from_indices ps in
          Ok (Some (jb_data j, mkProof bits bytes, ps, jb_delete j))
      end.

  (** *** Choice of jobs *)
  (** aggregation.rs:385-391: current-slot groups first *)
  Definition job_key_lt (a b : N * (N * N * N * N * H256)) : bool :=
    (a.1 <? b.1) || ((a.1 =? b.1) && key_lt a.2 b.2).
  Definition job_key (cur : N) (d : AttestationData) (sc : EntryScore) (r : H256) : N * (N * N * N * N * H256) :=
    ((if ad_slot d =? cur then 0 else 1), ordering_key sc r).
  (** aggregation.rs:339-380 [pick_best_candidate], one candidate *)
  Definition consider_job (pj : Projected) (known hist : list H256) (cur n : N)
      (best : option (H256 * Job * EntryScore)) (c : H256 * Job) : option (H256 * Job * EntryScore) :=
    let d := jb_data c.2 in
    if negb (passes_filters pj d known hist) then best
    else
      match score_entry pj d (jb_coverage c.2) n with
      | None => best
      | Some (sc, _) =>
          match best with
          | None => Some (c.1, c.2, sc)
          | Some (r, j, sc') =>
              if job_key_lt (job_key cur d sc c.1) (job_key cur (jb_data j) sc' r) then Some (c.1, c.2, sc) else best
          end
      end.
  Definition pick_job (pj : Projected) (known hist : list H256) (cur n : N) (cands : list (H256 * Job))
    : option (H256 * Job * EntryScore) :=
    fold_left (consider_job pj known hist cur n) cands None.
  (** aggregation.rs:278-318: the rounds *)
  Fixpoint job_rounds (rounds : nat) (pj : Projected) (known hist : list H256) (cur n : N)
      (cands : list (H256 * Job)) : res unit (list Job) :=
    match rounds with
    | O => Ok []
    | S k =>
        match pick_job pj known hist cur n cands with
        | None => Ok []
        | Some (r, j, sc) =>
            match advance pj (sc_tier sc) (jb_data j) (jb_coverage j) with
            | Ok pj' =>
                let! js := job_rounds k pj' known hist cur n (List.filter (fun c => negb (c.1 =? r)) cands) in
                Ok (j :: js)
            | Err _ | Panic => Panic
            end
        end
    end.

  (** aggregation.rs:221-256: the candidates, from the signature groups and from
      pending payloads without one.  [groups] and [keys]: the contents of the two
      pools in some iteration order. *)
  Fixpoint gossip_candidates (n : Node) (vals : list Validator) (groups : list (H256 * AttestationData * list (N * N)))
    : res unit (list (H256 * Job)) :=
    match groups with
    | [] => Ok []
    | (r, d, sigs) :: groups' =>
        let! o := resolve_job vals d sigs (proofs_for_root (nd_new n) r) (proofs_for_root (nd_known n) r) in
        let! l := gossip_candidates n vals groups' in
        Ok (match o with Some j => (r, j) :: l | None => l end)
    end.
  Fixpoint payload_candidates (n : Node) (vals : list Validator) (have : list (H256 * Job))
      (keys : list (H256 * AttestationData)) : res unit (list (H256 * Job)) :=
    match keys with
    | [] => Ok []
    | (r, d) :: keys' =>
        let new := proofs_for_root (nd_new n) r in
        let known := proofs_for_root (nd_known n) r in
        let! o := (if bool_decide (r ∈ map fst have) || (length new + length known <? 2)%nat then Ok None
                   else resolve_job vals d [] new known) in
        let! l := payload_candidates n vals have keys' in
        Ok (match o with Some j => (r, j) :: l | None => l end)
    end.
  (** aggregation.rs:206-328; the number of groups considered is only reported.
      A head without a readable state panics. *)
  Definition snapshot_aggregation_inputs (n : Node) (groups : list (H256 * AttestationData * list (N * N)))
      (keys : list (H256 * AttestationData)) (cur : N) (max_jobs : nat) : res unit (list Job) :=
    match groups, keys with
    | [], [] => Ok []
    | _, _ =>
        let! o := expect (read_state (tab n) (db_head (nd_db n))) in
        match o with
        | None => Panic
        | Some s =>
            let vals := s_validators s in
            let! c1 := gossip_candidates n vals groups in
            let! c2 := payload_candidates n vals c1 keys in
            job_rounds max_jobs (from_head_state s)
              (map (fun k : N * H256 * H256 => k.1.2) (map_to_list (t_live (tab n))))
              (s_hist s ++ [db_head (nd_db n)]) cur (lenN vals) (c1 ++ c2)
        end
    end.

  (** *** Re-aggregation from a block *)
  (** reaggregate.rs:231-236 *)
  Record Cand := mkCand { ca_att : AggAtt; ca_idx : nat; ca_new : N; ca_local : list Proof_ }.
  (** reaggregate.rs:251-274 *)
  Fixpoint find_candidates (n : Node) (i : nat) (atts : list AggAtt) : list Cand :=
    match atts with
    | [] => []
    | a :: atts' =>
        let rest := find_candidates n (S i) atts' in
        let r := e_data E (at_data a) in
        let local := proofs_for_root (nd_new n) r ++ proofs_for_root (nd_known n) r in
        let union : gset N := list_to_set (concat (map indices local)) in
        let block : gset N := list_to_set (validator_indices (at_bits a)) in
        if cp_slot (ad_target (at_data a)) <=? cp_slot (db_just (nd_db n)) then rest
        else if bool_decide (block ⊆ union) then rest
        else mkCand a i (N.of_nat (size (block ∖ union))) local :: rest
    end.
  (** [sort_by_key] with [Reverse]: stable, greatest first. *)
  Fixpoint insert_cand (c : Cand) (l : list Cand) : list Cand :=
    match l with
    | [] => [c]
    | x :: l' => if ca_new x <=? ca_new c then c :: l else x :: insert_cand c l'
    end.
  Definition sort_cands (l : list Cand) : list Cand := fold_right insert_cand [] l.
  (** reaggregate.rs:246-278 *)
  Definition select_candidates (n : Node) (atts : list AggAtt) : list Cand :=
    take MAX_REAGGREGATIONS_PER_BLOCK (sort_cands (find_candidates n 0 atts)).

  (** reaggregate.rs:147-178: keys of the local partial aggregates *)
  Fixpoint partial_children (vals : list Validator) (l : list Proof_) : option (list (list N * N)) :=
    match l with
    | [] => Some []
    | p :: l' =>
        let keys := omap (usable_key vals) (indices p) in
        if negb (length keys =? length (indices p))%nat then None
        else match partial_children vals l' with Some r => Some ((keys, pr_bytes p) :: r) | None => None end
    end.
  (** reaggregate.rs:113-218: one candidate; [None] where the code skips it.  The
      participants are not empty, so the greatest one exists. *)
  Definition combine_candidate (P : Prover) (P2 : Prover2) (vals : list Validator) (keylists : list (list N))
      (bytes : N) (c : Cand) : res unit (option (AttestationData * Proof_)) :=
    let d := at_data (ca_att c) in
    let bits := at_bits (ca_att c) in
    if two32 <=? ad_slot d then Ok None
    else
      match pv_split P2 bytes keylists (e_data E d) with
      | None => Ok None
      | Some split =>
          match ca_local c with
          | [] => Ok (Some (d, mkProof bits split))
          | _ =>
              match partial_children vals (ca_local c) with
              | None => Ok None
              | Some cs =>
                  match pv_aggregate P ((default [] (keylists !! ca_idx c), split) :: cs) (e_data E d) (ad_slot d) with
                  | None => Ok None
                  | Some merged =>
                      let all := validator_indices bits ++ concat (map indices (ca_local c)) in
                      let! ub := bits_from_indices all in
                      Ok (Some (d, mkProof ub merged))
                  end
              end
          end
      end.
  Fixpoint combine_all (P : Prover) (P2 : Prover2) (vals : list Validator) (keylists : list (list N))
      (bytes : N) (cs : list Cand) : res unit (list (AttestationData * Proof_)) :=
    match cs with
    | [] => Ok []
    | c :: cs' =>
        let! o := combine_candidate P P2 vals keylists bytes c in
        let! l := combine_all P P2 vals keylists bytes cs' in
        Ok (match o with Some x => x :: l | None => l end)
    end.
  (** reaggregate.rs:78-103: keys per component; [None] where the code gives up *)
  Fixpoint component_keys (vals : list Validator) (atts : list AggAtt) : option (list (list N)) :=
    match atts with
    | [] => Some []
    | a :: atts' =>
        let keys := omap (usable_key vals) (validator_indices (at_bits a)) in
        if negb (length keys =? length (validator_indices (at_bits a)))%nat then None
        else match component_keys vals atts' with Some r => Some (keys :: r) | None => None end
    end.
  (** reaggregate.rs:50-229: the recovered aggregates; the caller's node gets them
      by [insert_new_batch].  A missing or unreadable parent state gives nothing. *)
  Definition reaggregate_from_block (P : Prover) (P2 : Prover2) (n : Node) (sb : SignedBlock)
    : res unit (list (AttestationData * Proof_)) :=
    let b := sb_block sb in
    match b_atts b, read_state (tab n) (b_parent b) with
    | [], _ => Ok []
    | _, Ok (Some s) =>
        let vals := s_validators s in
        match component_keys vals (b_atts b), getN vals (b_proposer b) with
        | Some ks, Some v =>
            if negb (e_key_ok E (v_prop_key v)) then Ok []
            else combine_all P P2 vals (ks ++ [[v_prop_key v]]) (sb_proof sb) (select_candidates n (b_atts b))
        | _, _ => Ok []
        end
    | _, Panic => Panic
    | _, _ => Ok []
    end.
End Agg.
