(** The gauges on how many validators the attestations seen cover.
    Models crates/blockchain/src/coverage.rs, the snapshot of lib.rs:345-349 and
    crates/storage/src/store.rs:1650-1662.  Simplified: the label of a subnet is its number
    instead of the text "subnet_i"; counts are unbounded; hash maps are iterated in one
    fixed order (the gauges do not depend on it). *)
From Verif Require Export Actor.
Local Open Scope N_scope.

(** metrics.rs:12-19 *)
Inductive Section_ := SecTimely | SecLate | SecBlock | SecCombined | SecAggStartNew | SecProposal.
(** metrics.rs:23 *)
Inductive Direction := BlockOnly | TimelyOnly.
(** metrics.rs:1081-1100; [None]: the label "combined" *)
Inductive Gauge :=
| GValidators (sec : Section_) (subnet : option N)
| GSubnets (sec : Section_)
| GDiff (dir : Direction).
Global Instance Section_eq_dec : EqDecision Section_.
Proof. solve_decision. Defined.
Global Instance Direction_eq_dec : EqDecision Direction.
Proof. solve_decision. Defined.
Global Instance Gauge_eq_dec : EqDecision Gauge.
Proof. solve_decision. Defined.
(** What is written to the gauges, in order; a gauge shows what was written last. *)
Notation Writes := (list (Gauge * N)).
Definition shown (w : Writes) (g : Gauge) : option N :=
  fold_left (fun v x => if decide (x.1 = g) then Some x.2 else v) w None.

(** store.rs:1650-1662 *)
Definition new_aggregated_payload_participants (n : Node) : list (N * Bits) :=
  concat (map (fun x : H256 * PayloadEntry => map (fun p => (ad_slot (pe_data x.2), pr_bits p)) (pe_proofs x.2))
            (map_to_list (bf_data (nd_new n)))).
(** coverage.rs:36-42 *)
Definition snapshot_new_payloads (n : Node) : option (list (N * Bits)) :=
  match new_aggregated_payload_participants n with [] => None | l => Some l end.
(** lib.rs:345-349: the snapshot kept by the actor, at a tick in interval [interval] *)
Definition tick_snapshot (snap : option (list (N * Bits))) (interval : N) (n : Node) : option (list (N * Bits)) :=
  if interval =? 4 then match snapshot_new_payloads n with Some l => Some l | None => snap end else snap.

(** coverage.rs:44-56 *)
Definition cov_add (c : list bool * list bool) (bits : Bits) : list bool * list bool :=
  let cc := lenN c.2 in
  if cc =? 0 then c
  else fold_left (fun c vid =>
         if vid <? lenN c.1 then (<[N.to_nat vid := true]> c.1, <[N.to_nat (vid mod cc) := true]> c.2) else c)
         (validator_indices bits) c.
(** coverage.rs:67-72 *)
Definition subnet_counts (cc : N) (seen : list bool) : list N :=
  fold_left (fun c vid => alter N.succ (N.to_nat (vid mod cc)) c) (validator_indices seen) (replicate (N.to_nat cc) 0).
(** coverage.rs:58-87 *)
Definition cov_record (sec : Section_) (c : list bool * list bool) : Writes :=
  [(GValidators sec None, count_true c.1)] ++
  (if 0 <? lenN c.2
   then imap (fun i k => (GValidators sec (Some (N.of_nat i)), k)) (subnet_counts (lenN c.2) c.1) else []) ++
  [(GSubnets sec, count_true c.2)].
(** coverage.rs:89-93 *)
Definition or_into (dst src : list bool) : list bool := zip_with orb dst src.
(** coverage.rs:171-179 *)
Fixpoint count_diff (b t : list bool) : N * N :=
  match b, t with
  | bv :: b', tv :: t' =>
      let '(x, y) := count_diff b' t' in
      match bv, tv with
      | true, false => (x + 1, y)
      | false, true => (x, y + 1)
      | _, _ => (x, y)
      end
  | _, _ => (0, 0)
  end.

Section Coverage.
  Context (E : Env).
  (** Sets of [validator_count] validators and of [cc] subnets, empty *)
  Definition cov_empty (validator_count cc : N) : list bool * list bool :=
    (replicate (N.to_nat validator_count) false, replicate (N.to_nat cc) false).
  Definition cov_round (slot : N) (entries : list (N * Bits)) (c : list bool * list bool) :=
    fold_left (fun c x => if x.1 =? slot then cov_add c x.2 else c) entries c.
  (** coverage.rs:99-182 *)
  Definition emit_post_block_coverage (n : Node) (pre_merge : option (list (N * Bits))) (cc slot : N) : res unit Writes :=
    let! s := head_state n in
    let validator_count := lenN (s_validators s) in
    if (validator_count =? 0) || (cc =? 0) then Ok []
    else
      let none := cov_empty validator_count cc in
      let timely := match pre_merge with Some l => cov_round slot l none | None => none end in
      let late := cov_round slot (new_aggregated_payload_participants n) none in
      let block := match get_block (e_body E) (tab n) (db_head (nd_db n)) with
                   | Some b => cov_round slot (map (fun a => (ad_slot (at_data a), at_bits a)) (b_atts b)) none
                   | None => none
                   end in
      let combined := (or_into (or_into timely.1 late.1) block.1, or_into (or_into timely.2 late.2) block.2) in
      if count_true block.1 =? 0 then Ok []
      else
        let '(block_only, timely_only) := count_diff block.1 timely.1 in
        Ok (cov_record SecTimely timely ++ cov_record SecLate late ++ cov_record SecBlock block ++
            cov_record SecCombined combined ++ [(GDiff BlockOnly, block_only); (GDiff TimelyOnly, timely_only)]).
  (** coverage.rs:186-199 *)
  Definition emit_agg_start_new_coverage (n : Node) (cc : N) : res unit Writes :=
    let! s := head_state n in
    let validator_count := lenN (s_validators s) in
    if (validator_count =? 0) || (cc =? 0) then Ok []
    else Ok (cov_record SecAggStartNew
               (fold_left (fun c x => cov_add c x.2) (new_aggregated_payload_participants n) (cov_empty validator_count cc))).
  (** coverage.rs:203-220 *)
  Definition emit_proposal_coverage (n : Node) (cc : N) (selected : list AggAtt) : res unit Writes :=
    let! s := head_state n in
    let validator_count := lenN (s_validators s) in
    if (validator_count =? 0) || (cc =? 0) then Ok []
    else Ok (cov_record SecProposal
               (fold_left (fun c a => cov_add c (at_bits a)) selected (cov_empty validator_count cc))).
End Coverage.
