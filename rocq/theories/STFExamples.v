(** Concrete chains with toy hash functions: non-vacuity witnesses and
    counterexamples. *)
From Verif Require Export STFAtt.

(** Toy hashes: any concrete functions do; these separate the blocks below. *)
Definition toy_body (l : list AggAtt) : N :=
  fold_left (fun h a => h * 31 + fold_left (fun x b => x * 2 + (if b : bool then 1 else 0)) (at_bits a) 1
     + 7 * cp_slot (ad_target (at_data a)) + 11 * cp_slot (ad_source (at_data a))) l 1 mod 1000003.
Definition toy_header (h : Header) : N :=
  1 + (h_slot h + 1009 * (h_proposer h + 17 * h_parent h) + 5 * h_state_root h + 3 * h_body_root h) mod 1000000007.
Definition toy_state (s : State) : N :=
  1 + (s_slot s * 65537 + h_body_root (s_header s) * 13 + cp_slot (s_justified s)) mod 999983.

Definition toy_vals (n : nat) : list Validator :=
  map (fun i => mkVal (100 + N.of_nat i) (200 + N.of_nat i) (N.of_nat i)) (seq 0 n).

Notation t_chain := (chain toy_state toy_header toy_body).
Notation t_stf := (state_transition toy_state toy_header toy_body).

(** Build a valid block on [s] (what an honest proposer does). *)
Definition t_block (s : State) (slot : N) (atts : list AggAtt) : Block :=
  match process_slots toy_state s slot with
  | Ok s1 =>
      let b := mkBlock slot (slot mod lenN (s_validators s)) (toy_header (s_header s1)) 0 atts in
      match process_block toy_header toy_body s1 b with
      | Ok s2 => mkBlock slot (b_proposer b) (b_parent b) (toy_state s2) atts
      | _ => b
      end
  | _ => mkBlock 0 0 0 0 []
  end.

Fixpoint t_run (s : State) (specs : list (N * (State -> list AggAtt))) : option (State * list Block) :=
  match specs with
  | [] => Some (s, [])
  | (slot, f) :: rest =>
      let b := t_block s slot (f s) in
      match t_stf s b with
      | Ok s' => match t_run s' rest with
                 | Some (sf, bs) => Some (sf, b :: bs)
                 | None => None
                 end
      | _ => None
      end
  end.

Lemma t_run_chain gt vals s bs specs s' bs' :
  t_chain gt vals s bs -> t_run s specs = Some (s', bs') -> t_chain gt vals s' (bs ++ bs').
Proof.
  revert s bs bs'. induction specs as [|[slot f] specs IH]; intros s bs bs' Hch; cbn [t_run].
  - intros [= <- <-]. by rewrite app_nil_r.
  - destruct (t_stf s (t_block s slot (f s))) as [s1| |] eqn:E; [|done|done].
    destruct (t_run s1 specs) as [[sf bs1]|] eqn:E1; [|done]. intros [= <- <-].
    replace (bs ++ t_block s slot (f s) :: bs1) with ((bs ++ [t_block s slot (f s)]) ++ bs1)
      by (by rewrite <- app_assoc).
    apply (IH s1); [|done]. by eapply chain_step.
Qed.

Lemma t_run_start gt vals specs s bs :
  t_run (genesis toy_body gt vals) specs = Some (s, bs) -> t_chain gt vals s bs.
Proof. apply (t_run_chain gt vals _ []). apply chain_genesis. Qed.

(** Root of the block at [slot] on the chain that the next block of [s] will see. *)
Definition root_on (s : State) (slot : N) : N :=
  if slot =? s_slot s
  then toy_header (set_state_root (s_header s) (toy_state s))
  else default 0 (s_hist s !! N.to_nat slot).
Definition t_att (s : State) (bits : list bool) (src tgt : N) : AggAtt :=
  mkAtt bits (mkAD tgt (mkCp (root_on s tgt) tgt) (mkCp (root_on s tgt) tgt)
                (mkCp (root_on s src) src)).

(** A chain of three validators that justifies slots 1, 2, 3 and finalizes 1, 2. *)
Definition ex_specs : list (N * (State -> list AggAtt)) :=
  [ (1, fun _ => []);
    (2, fun s => [t_att s [true; true] 0 1]);
    (3, fun s => [t_att s [true; false; true] 1 2]);
    (5, fun s => [t_att s [true; false; false] 2 3; t_att s [false; true; false] 2 3]);
    (6, fun s => [t_att s [true; false; false] 3 5]) ].
Definition ex_result := t_run (genesis toy_body 1000 (toy_vals 3)) ex_specs.
Definition ex_state : State :=
  match ex_result with Some (s, _) => s | None => genesis toy_body 0 [] end.
Definition ex_blocks : list Block :=
  match ex_result with Some (_, bs) => bs | None => [] end.

Lemma ex_chain : t_chain 1000 (toy_vals 3) ex_state ex_blocks.
Proof. apply (t_run_start _ _ ex_specs). vm_compute. reflexivity. Qed.

Lemma ex_summary :
  (cp_slot (s_finalized ex_state), cp_slot (s_justified ex_state), s_slot ex_state,
   length (s_jroots ex_state), s_jvals ex_state, s_jslots ex_state) =
  (2, 3, 6, 1%nat, [true; false; false], [true; false; false]).
Proof. vm_compute. reflexivity. Qed.

Lemma ex_roots_distinct :
  NoDup (map snd (chain_entries toy_state toy_header toy_body 1000 (toy_vals 3) ex_blocks)).
Proof. apply (bool_decide_unpack _). vm_compute. exact I. Qed.

(** Counterexample for C14: slot 2 gathers the votes of validators 0 and 1 with
    different sources; the source of the last one is finalized although only
    validator 1 voted with it. *)
Definition mix_specs : list (N * (State -> list AggAtt)) :=
  [ (1, fun _ => []);
    (2, fun s => [t_att s [true; true] 0 1]);
    (3, fun s => [t_att s [true; false; false] 0 2; t_att s [false; true; false] 1 2]) ].
Definition mix_result := t_run (genesis toy_body 1000 (toy_vals 3)) mix_specs.
Definition mix_state : State :=
  match mix_result with Some (s, _) => s | None => genesis toy_body 0 [] end.
Definition mix_blocks : list Block :=
  match mix_result with Some (_, bs) => bs | None => [] end.
Lemma mix_chain : t_chain 1000 (toy_vals 3) mix_state mix_blocks.
Proof. apply (t_run_start _ _ mix_specs). vm_compute. reflexivity. Qed.
Lemma mix_finalized : cp_slot (s_finalized mix_state) = 1.
Proof. vm_compute. reflexivity. Qed.

(** All voters of attestations with a given source in a list of blocks. *)
Definition source_voters (bs : list Block) (c : Checkpoint) : list N :=
  concat (map (fun b => concat (map (fun a =>
    if bool_decide (ad_source (at_data a) = c) then validator_indices (at_bits a) else []) (b_atts b))) bs).
Lemma source_voters_spec bs c v :
  (exists b a, b ∈ bs /\ a ∈ b_atts b /\ votes_in v a /\ ad_source (at_data a) = c) ->
  v ∈ source_voters bs c.
Proof.
  intros (b & a & Hb & Ha & Hv & Hs). unfold source_voters.
  apply elem_of_concat. eexists. split; [|apply elem_of_map; exists b; split; [reflexivity|done]].
  apply elem_of_concat. eexists. split; [|apply elem_of_map; exists a; split; [reflexivity|done]].
  rewrite bool_decide_true by done. by apply validator_indices_spec.
Qed.
Lemma mix_source_voters : source_voters mix_blocks (s_finalized mix_state) = [1].
Proof. vm_compute. reflexivity. Qed.
Lemma mix_not_two_thirds :
  ~ two_thirds (lenN (toy_vals 3)) (fun v => exists b a,
      b ∈ mix_blocks /\ a ∈ b_atts b /\ votes_in v a /\ ad_source (at_data a) = s_finalized mix_state).
Proof.
  intros (vs & Hnd & Hvs & Hc).
  assert (vs ⊆+ [1]) as Hsub.
  { apply NoDup_submseteq; [done|]. intros v Hv. rewrite <- mix_source_voters.
    apply source_voters_spec. by apply Hvs. }
  apply submseteq_length in Hsub. cbn in Hsub. change (lenN (toy_vals 3)) with 3 in Hc.
  unfold lenN in Hc. lia.
Qed.
