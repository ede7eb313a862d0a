(** Concrete chains for C74. *)
From Verif Require Export LivenessProofs STFExamples.

(** Sixteen validators, twelve of them present and voting, nothing before slot 6: slots 6
    and 12 get justified, nothing finalized. *)
Definition live_specs : list (N * (State -> list AggAtt)) :=
  let all := map (fun i => bool_decide (N.of_nat i ∈ present)) (seq 0 16) in
  [ (6, fun _ => []);
    (7, fun s => [t_att s all 0 6]);
    (8, fun _ => []); (10, fun _ => []); (11, fun _ => []);
    (12, fun _ => []);
    (13, fun s => [t_att s all 6 12]);
    (14, fun s => [t_att s all 6 12]) ].
Definition live_result := t_run (genesis toy_body 1000 (toy_vals 16)) live_specs.
Definition live_state : State := match live_result with Some (s, _) => s | None => genesis toy_body 0 [] end.
Definition live_blocks : list Block := match live_result with Some (_, bs) => bs | None => [] end.
Lemma live_chain : t_chain 1000 (toy_vals 16) live_state live_blocks.
Proof. apply t_run_start with live_specs. vm_compute. reflexivity. Qed.
Lemma live_only : only_by present live_blocks.
Proof.
  assert (forallb (fun b => bool_decide (b_proposer b ∈ present) &&
    forallb (fun a => forallb (fun v => bool_decide (v ∈ present)) (validator_indices (at_bits a))) (b_atts b)) live_blocks = true) as H
    by (vm_compute; reflexivity).
  rewrite forallb_forall in H. intros b Hb. apply elem_of_list_In in Hb. specialize (H b Hb). apply andb_true_iff in H as [H1 H2].
  apply bool_decide_eq_true in H1. split; [done|]. intros a v Ha Hv. rewrite forallb_forall in H2. apply elem_of_list_In in Ha.
  specialize (H2 a Ha). rewrite forallb_forall in H2. specialize (H2 v). apply bool_decide_eq_true in H2; [done|].
  apply elem_of_list_In, validator_indices_spec. exact Hv.
Qed.
Lemma live_late : forall b, b ∈ live_blocks -> 5 < b_slot b.
Proof.
  assert (forallb (fun b => 5 <? b_slot b) live_blocks = true) as H by (vm_compute; reflexivity).
  rewrite forallb_forall in H. intros b Hb. apply elem_of_list_In in Hb. apply N.ltb_lt. by apply H.
Qed.
Lemma toy_header_nonzero h : toy_header h <> ZERO.
Proof. unfold toy_header, ZERO. lia. Qed.
Lemma ex_quorum : quorum 3 [1; 2].
Proof.
  split; [apply (bool_decide_unpack _); vm_compute; exact I|]. split; [|vm_compute; done].
  intros v. rewrite !elem_of_cons, elem_of_nil. lia.
Qed.
