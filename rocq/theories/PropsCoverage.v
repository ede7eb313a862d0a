(** The gauges on the coverage of attestations. *)
From Verif Require Import CoverageSpec CoverageProofs NodeExamples.
Local Open Scope N_scope.

(** ** C80: in every reachable node, the report on the slot [slot] is made without panic.  If
    the head block has no vote of a known validator for that slot, no gauge changes.  If it
    has one, the sections "timely", "late", "block" and "combined" show the validators in
    the snapshot, in the pool of new aggregates, in the head block and in any of them, each
    validator once, in all and by subnet; the differences show who is in the block but not
    in the snapshot and the reverse; the other sections do not change. *)
Theorem C80_report E gt vals n snap cc slot :
  good_hash (e_header E) -> lenN vals <= VALIDATOR_REGISTRY_LIMIT -> reachable E gt vals n -> vals <> [] -> 0 < cc ->
  exists w, emit_post_block_coverage E n snap cc slot = Ok w /\
    ((forall v, v < lenN vals -> ~ in_head_block E n slot v) /\ w = [] \/
     (exists v, v < lenN vals /\ in_head_block E n slot v) /\
     section_shows w SecTimely (lenN vals) cc (in_snapshot snap slot) /\
     section_shows w SecLate (lenN vals) cc (in_pool n slot) /\
     section_shows w SecBlock (lenN vals) cc (in_head_block E n slot) /\
     section_shows w SecCombined (lenN vals) cc
       (fun v => in_snapshot snap slot v \/ in_pool n slot v \/ in_head_block E n slot v) /\
     (exists k, shown w (GDiff BlockOnly) = Some k /\
        number (fun v => v < lenN vals /\ in_head_block E n slot v /\ ~ in_snapshot snap slot v) k) /\
     (exists k, shown w (GDiff TimelyOnly) = Some k /\
        number (fun v => v < lenN vals /\ ~ in_head_block E n slot v /\ in_snapshot snap slot v) k) /\
     (forall sec g, of_section sec g -> sec = SecAggStartNew \/ sec = SecProposal -> shown w g = None)).
Proof.
  intros H1 H2 H3 H4 Hc. destruct (reach_head E gt vals H1 H2 n H3) as (s & Hs & <-).
  apply report_pf; [exact Hs|destruct (s_validators s); [done|unfold lenN; cbn; lia]|exact Hc].
Qed.
Print Assumptions C80_report.

(** ... and the numbers of the subnets add up to the number in all. *)
Theorem C80_subnets_add_up E gt vals n snap cc slot w sec :
  good_hash (e_header E) -> lenN vals <= VALIDATOR_REGISTRY_LIMIT -> reachable E gt vals n -> vals <> [] -> 0 < cc ->
  emit_post_block_coverage E n snap cc slot = Ok w -> w <> [] ->
  sec ∈ [SecTimely; SecLate; SecBlock; SecCombined] ->
  shown w (GValidators sec None) =
    Some (foldr N.add 0 (map (fun i => default 0 (shown w (GValidators sec (Some (N.of_nat i))))) (seq 0 (N.to_nat cc)))).
Proof. intros H1 H2. exact (sum_pf E gt vals H1 H2 n snap cc slot w sec). Qed.
Print Assumptions C80_subnets_add_up.

(** ** The snapshot: after any history of ticks, it has the votes that were in the pool at the
    latest tick in interval 4 that found anything in it. *)
Theorem C80_snapshot (ticks : list (N * Node)) slot v :
  in_snapshot (fold_left (fun s x => tick_snapshot s x.1 x.2) ticks None) slot v <->
  exists before n after, ticks = before ++ (4, n) :: after /\ in_pool n slot v /\
    forall n', (4, n') ∈ after -> no_proofs n'.
Proof. exact (ticks_snapshot_pf ticks slot v). Qed.
Print Assumptions C80_snapshot.

(** ** When an aggregation starts, "agg_start_new" shows the validators in the pool of new
    aggregates, whatever the slot; when a block is proposed, "proposal_combined" shows those
    in its attestations. *)
Theorem C80_agg_start E gt vals n cc :
  good_hash (e_header E) -> lenN vals <= VALIDATOR_REGISTRY_LIMIT -> reachable E gt vals n -> vals <> [] -> 0 < cc ->
  exists w, emit_agg_start_new_coverage n cc = Ok w /\
    section_shows w SecAggStartNew (lenN vals) cc (fun v => exists slot, in_pool n slot v) /\
    (forall g, ~ of_section SecAggStartNew g -> shown w g = None).
Proof.
  intros H1 H2 H3 H4 Hc. destruct (reach_head E gt vals H1 H2 n H3) as (s & Hs & <-).
  apply agg_start_pf; [exact Hs|destruct (s_validators s); [done|unfold lenN; cbn; lia]|exact Hc].
Qed.
Print Assumptions C80_agg_start.
Theorem C80_proposal E gt vals n cc atts :
  good_hash (e_header E) -> lenN vals <= VALIDATOR_REGISTRY_LIMIT -> reachable E gt vals n -> vals <> [] -> 0 < cc ->
  exists w, emit_proposal_coverage n cc atts = Ok w /\
    section_shows w SecProposal (lenN vals) cc (fun v => exists slot, in_atts atts slot v) /\
    (forall g, ~ of_section SecProposal g -> shown w g = None).
Proof.
  intros H1 H2 H3 H4 Hc. destruct (reach_head E gt vals H1 H2 n H3) as (s & Hs & <-).
  apply proposal_pf; [exact Hs|destruct (s_validators s); [done|unfold lenN; cbn; lia]|exact Hc].
Qed.
Print Assumptions C80_proposal.

(** The head block B3 has the votes of the validators 0 and 1 for slot 2; the snapshot had
    those of 0, of 2 and of one that does not exist; the pool has votes for slot 40. *)
Definition xcv_snap : option (list (N * Bits)) := Some [(2, [true; false; true; true]); (1, [true; true])].
Definition xcv_gauges : list Gauge :=
  [GValidators SecTimely None; GValidators SecTimely (Some 0); GValidators SecTimely (Some 1); GSubnets SecTimely;
   GValidators SecLate None; GSubnets SecLate;
   GValidators SecBlock None; GValidators SecBlock (Some 0); GValidators SecBlock (Some 1); GSubnets SecBlock;
   GValidators SecCombined None; GSubnets SecCombined; GDiff BlockOnly; GDiff TimelyOnly; GSubnets SecProposal].
Example C80_nonvacuous :
  reachable xe 1000 x_vals x_n3 /\
  (match emit_post_block_coverage xe x_n3 xcv_snap 2 2 with Ok w => map (shown w) xcv_gauges | _ => [] end) =
    [Some 2; Some 2; Some 0; Some 1; Some 0; Some 0; Some 2; Some 1; Some 1; Some 2; Some 3; Some 2; Some 1; Some 1; None] /\
  emit_post_block_coverage xe x_n3 xcv_snap 2 1 = Ok [] /\
  (match emit_agg_start_new_coverage x_n3 2 with
   | Ok w => map (shown w) [GValidators SecAggStartNew None; GValidators SecAggStartNew (Some 0);
                            GValidators SecAggStartNew (Some 1); GSubnets SecAggStartNew]
   | _ => [] end) = [Some 2; Some 1; Some 1; Some 2].
Proof. split; [exact x_reach3|]. vm_compute. done. Qed.
(** A snapshot of an empty pool does not replace it; later ticks do not either. *)
Example C80_snapshot_kept :
  in_snapshot (fold_left (fun s x => tick_snapshot s x.1 x.2) [(4, x_n3); (0, x_n3); (4, x_n1)] None) 40 1.
Proof. exists [(40, [false; true; true])], [false; true; true]. split; [vm_compute; reflexivity|]. split; [left|reflexivity]. Qed.
