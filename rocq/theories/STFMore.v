(** Proofs of the theorems stated in PropsSTF.v. *)
From Verif Require Export STFExamples.

Lemma C01_proposer_schedule_pf :
  (forall v slot n, is_proposer v slot n = true <-> 0 < n /\ v = slot mod n) /\
  (forall slot n, 0 < n -> exists! v, v < n /\ is_proposer v slot n = true).
Proof.
  split; [exact is_proposer_spec|].
  intros slot n Hn. exists (slot mod n). split.
  - split; [apply N.mod_lt; lia|]. by apply is_proposer_spec.
  - intros v [_ Hv]. by apply is_proposer_spec in Hv as [_ ->].
Qed.

Lemma C01_only_proposer_accepted_pf hash_state hash_header hash_body s b s' :
  state_transition hash_state hash_header hash_body s b = Ok s' ->
  is_proposer (b_proposer b) (b_slot b) (lenN (s_validators s)) = true.
Proof.
  intros H. apply is_proposer_spec.
  by apply (state_transition_links hash_state hash_header hash_body) in H as (_&_&_&_&_&_&_&_&?).
Qed.

Lemma C02_block_linkage_pf hash_state hash_header hash_body s b s' :
  state_transition hash_state hash_header hash_body s b = Ok s' ->
  s_slot s < b_slot b /\ h_slot (s_header s) < b_slot b /\
  b_parent b = hash_header (filled_header hash_state s) /\
  b_state_root b = hash_state s' /\
  s_slot s' = b_slot b /\
  s_header s' = mkHeader (b_slot b) (b_proposer b) (b_parent b) ZERO (hash_body (b_atts b)) /\
  s_genesis_time s' = s_genesis_time s /\ s_validators s' = s_validators s.
Proof.
  intros H. apply (state_transition_links hash_state hash_header hash_body) in H.
  tauto.
Qed.

Lemma C03_history_pf hash_state hash_header hash_body gt vals s bs :
  chain hash_state hash_header hash_body gt vals s bs ->
  lenN (s_hist s) = s_slot s /\
  s_slot s = match last bs with Some b => b_slot b | None => 0 end /\
  lenN (s_hist s) <= HISTORICAL_ROOTS_LIMIT /\
  (forall t r, (t, r) ∈ chain_entries hash_state hash_header hash_body gt vals bs ->
     t < s_slot s -> root_at s t = Some r) /\
  (forall t, t < s_slot s ->
     (forall r, (t, r) ∉ chain_entries hash_state hash_header hash_body gt vals bs) ->
     root_at s t = Some ZERO).
Proof.
  intros Hch. destruct (chain_last_slot _ _ _ _ _ _ _ Hch) as (Hs & Hl & _ & Hlim).
  destruct (chain_history _ _ _ _ _ _ _ Hch) as [H1 H2].
  split; [done|]. split; [|split; [done|split; [|done]]].
  - rewrite Hs. unfold last_entry. by destruct (last bs).
  - intros t r Hin. by apply H1.
Qed.

Lemma C03_append_only_pf hash_state hash_header hash_body gt vals s bs b s' :
  chain hash_state hash_header hash_body gt vals s bs ->
  state_transition hash_state hash_header hash_body s b = Ok s' ->
  exists added, s_hist s' = s_hist s ++ added /\ added <> [].
Proof.
  intros Hch Hst. destruct (chain_append _ _ _ _ _ _ _ _ _ Hch Hst) as [k Hk].
  exists k. split; [done|]. intros ->. rewrite app_nil_r in Hk.
  destruct (chain_last_slot _ _ _ _ _ _ _ Hch) as (_ & Hl & _).
  assert (chain hash_state hash_header hash_body gt vals s' (bs ++ [b])) as Hch' by (by eapply chain_step).
  destruct (chain_last_slot _ _ _ _ _ _ _ Hch') as (_ & Hl' & _).
  apply state_transition_links in Hst as (? & _ & _ & _ & ? & _). rewrite Hk in Hl'. lia.
Qed.

Lemma C07_attestation_effect_pf hash_state hash_header hash_body gt vals s bs b prev a v0 :
  lenN vals <= VALIDATOR_REGISTRY_LIMIT ->
  in_block hash_state hash_header hash_body gt vals s bs b prev ->
  vote_counts s (at_data a) ->
  votes_in v0 a -> (forall v, votes_in v a -> v < lenN vals) ->
  exists s', process_attestations s [a] = Ok s' /\ frame s s' /\
    (~ two_thirds (lenN vals) (voters_after s a) -> att_effect_below s a s') /\
    (two_thirds (lenN vals) (voters_after s a) -> att_effect_reached s a s').
Proof.
  intros Hreg Hib Hc Hv Hb.
  destruct (in_block_facts _ _ _ _ _ _ _ _ _ Hib) as (Hsi & Hlim & _ & Hvals & _).
  rewrite <- Hvals in Hreg, Hb |- *.
  destruct (att_effect s Hsi Hlim Hreg a v0 Hc Hv Hb) as (s' & H1 & H2 & _ & H3 & H4). eauto 6.
Qed.

Lemma C08_finalization_pf hash_state hash_header hash_body gt vals s bs b prev a s' :
  lenN vals <= VALIDATOR_REGISTRY_LIMIT ->
  in_block hash_state hash_header hash_body gt vals s bs b prev ->
  process_attestations s [a] = Ok s' ->
  s_finalized s' <> s_finalized s ->
  let src := ad_source (at_data a) in
  let tgt := ad_target (at_data a) in
  s_finalized s' = src /\
  cp_slot (s_finalized s) < cp_slot src < cp_slot tgt /\
  slot_justified s (cp_slot src) /\ on_chain s src /\ on_chain s tgt /\
  slot_tracked_unjustified s (cp_slot tgt) /\ slot_justified s' (cp_slot tgt) /\
  two_thirds (lenN vals) (voters_after s a) /\
  (forall t, cp_slot src < t < cp_slot tgt -> ~ justifiable_distance (t - cp_slot (s_finalized s))).
Proof.
  intros Hreg Hib Hok Hne.
  destruct (in_block_facts _ _ _ _ _ _ _ _ _ Hib) as (Hsi & Hlim & _ & Hvals & _).
  rewrite <- Hvals in Hreg |- *.
  assert (vote_counts s (at_data a)) as Hc.
  { destruct (valid_cases s (at_data a)) as [[H _]|[[H Hno]|[_ H]]].
    - by apply (valid_iff s Hsi Hlim Hreg).
    - exfalso. rewrite (att_ignored s Hsi Hlim Hreg) in Hok; [|rewrite <- (valid_iff s Hsi Hlim Hreg); congruence|done].
      congruence.
    - exfalso. rewrite (att_out_of_range s Hsi) in Hok by done. done. }
  assert (exists v0, votes_in v0 a) as [v0 Hv0].
  { destruct (decide (count_true (at_bits a) = 0)) as [Hz|Hz].
    - exfalso. rewrite (att_no_voters s Hsi Hlim Hreg) in Hok; [done|done|].
      intros v. apply (proj1 (count_true_0 _) Hz).
    - rewrite <- validator_indices_length in Hz.
      destruct (validator_indices (at_bits a)) as [|v l] eqn:E; [done|].
      exists v. unfold votes_in. apply validator_indices_spec. rewrite E. left. }
  assert (forall v, votes_in v a -> v < lenN (s_validators s)) as Hb.
  { intros v Hv. destruct (decide (v < lenN (s_validators s))); [done|].
    exfalso. rewrite (att_oob s Hsi Hlim Hreg a v) in Hok; [done|done|done|lia]. }
  destruct (att_effect s Hsi Hlim Hreg a v0 Hc Hv0 Hb) as (s1 & H1 & _ & _ & H3 & H4).
  rewrite H1 in Hok. injection Hok as ->.
  destruct (decide (2 * lenN (s_validators s) <=
    3 * count_true (mark_votes (votes_for s (tallies_of s) (cp_root (ad_target (at_data a)))) (at_bits a))))
    as [Hd|Hd].
  2:{ exfalso. apply Hne. apply H3. intros H. apply Hd.
      destruct (marked_spec s Hsi Hlim Hreg a Hb) as [Hl Hm].
      apply (two_thirds_iff _ _ _ (f_equal N.of_nat Hl) Hm). done. }
  assert (two_thirds (lenN (s_validators s)) (voters_after s a)) as H23.
  { destruct (marked_spec s Hsi Hlim Hreg a Hb) as [Hl Hm].
    apply (two_thirds_iff _ _ _ (f_equal N.of_nat Hl) Hm). done. }
  destruct (H4 H23) as [E1 E2 E3 E4 E5 E6].
  destruct Hc as (Hsj & Hun & Hcs & Hct & Hch & Hlt & Hjd).
  assert (finalizes s a) as Hfin.
  { destruct (decide (cp_slot (s_finalized s) < cp_slot (ad_source (at_data a)))) as [Hgt|Hgt].
    2:{ exfalso. apply Hne, E5. intros [? _]. done. }
    split; [done|]. intros t Ht Htj. apply Hne, E5. intros [_ Hf]. by apply (Hf t). }
  cbn zeta. split; [by apply E4|]. destruct Hfin as [Hf1 Hf2].
  repeat (split; [done|]). done.
Qed.

Lemma C09_justifiable_refuted_pf :
  exists slot fin, slot < two64 /\ fin < two64 /\
    ~ (slot_is_justifiable_after slot fin = true <->
       fin <= slot /\ justifiable_distance (slot - fin)).
Proof.
  exists (2147483648 * 2147483649), 0. split; [done|]. split; [done|].
  intros [_ H].
  assert (slot_is_justifiable_after (2147483648 * 2147483649) 0 = false) as Hf by (vm_compute; done).
  rewrite Hf in H. discriminate H. split; [done|]. right. right. exists 2147483648. done.
Qed.

Lemma C10_shift_preserves_pf js fin fin' t :
  fin <= fin' -> fin' < t ->
  status (shift_window js (fin' - fin)) fin' t = status js fin t.
Proof. intros Hle Ht. exact (shift_window_spec js fin fin' Hle t Ht). Qed.

Lemma C10_extend_pf js fin target js' t :
  extend_to_slot js fin target = Ok js' ->
  status js' fin t =
    match status js fin t with
    | Some b => Some b
    | None => if t <=? target then Some false else None
    end.
Proof. intros H. exact (extend_to_slot_spec js fin target js' H t). Qed.

Lemma C10_set_pf js fin target js' t :
  set_justified js fin target = Ok js' ->
  status js' fin t = if t =? target then Some true else status js fin t.
Proof. intros H. exact (set_justified_spec js fin target js' H t). Qed.

Lemma C10_total_pf js fin target :
  (target - fin <= HISTORICAL_ROOTS_LIMIT -> exists js', extend_to_slot js fin target = Ok js') /\
  (is_Some (status js fin target) -> exists js', set_justified js fin target = Ok js').
Proof.
  split; [exact (extend_to_slot_ok js fin target)|].
  intros H. apply set_justified_ok. by apply status_tracked.
Qed.

Lemma C11_same_tallies_same_encoding_pf hash_state hash_header hash_body gt vals s bs s' bs' :
  chain hash_state hash_header hash_body gt vals s bs ->
  chain hash_state hash_header hash_body gt vals s' bs' ->
  (forall r, r ∈ s_jroots s <-> r ∈ s_jroots s') ->
  (forall r v, tallied s r v <-> tallied s' r v) ->
  s_jroots s = s_jroots s' /\ s_jvals s = s_jvals s'.
Proof.
  intros H1 H2. apply (canonical_same_tallies hash_state).
  - by eapply chain_canonical.
  - by eapply chain_canonical.
  - pose proof (cf_vals _ _ _ _ _ _ _ (chain_has_facts _ _ _ _ _ _ _ H1)) as ->.
    by pose proof (cf_vals _ _ _ _ _ _ _ (chain_has_facts _ _ _ _ _ _ _ H2)) as ->.
Qed.

Lemma C11_no_structural_rejection_pf hash_state hash_header hash_body gt vals s bs b :
  chain hash_state hash_header hash_body gt vals s bs ->
  state_transition hash_state hash_header hash_body s b <> Err JustificationVotesLengthMismatch /\
  state_transition hash_state hash_header hash_body s b <> Err ZeroHashInJustificationRoots.
Proof.
  intros Hch. pose proof (chain_has_facts _ _ _ _ _ _ _ Hch) as Hcf.
  unfold state_transition.
  destruct (process_slots hash_state s (b_slot b)) as [s1|e|] eqn:E1; cbn [rbind]; [| |done].
  2:{ unfold process_slots in E1. destruct (_ <=? _); [|done]. injection E1 as <-. done. }
  unfold process_block.
  destruct (process_block_header hash_header hash_body s1 b) as [s2|e|] eqn:E2; cbn [rbind]; [| |done].
  2:{ unfold process_block_header in E2.
      destruct (negb _); [injection E2 as <-; done|]. destruct (_ <=? _); [injection E2 as <-; done|].
      destruct (current_proposer _ _); [|injection E2 as <-; done].
      destruct (negb _); [injection E2 as <-; done|]. destruct (negb _); [injection E2 as <-; done|].
      destruct (_ <? _); [injection E2 as <-; done|].
      match type of E2 with rbind (extend_to_slot ?a ?b ?c) _ = _ =>
        destruct (extend_to_slot a b c) eqn:E3; [done|by apply extend_to_slot_Err in E3|done] end. }
  pose proof (header_step _ _ _ _ _ _ _ _ _ _ Hcf E1 E2) as Hhf.
  pose proof (header_state_inv _ _ _ _ _ _ _ _ _ Hcf Hhf) as Hsi.
  rewrite (process_attestations_unfold _ _ _ Hsi).
  destruct (_ <? _); [done|].
  destruct (process_all _ _ _) as [[s3 m3]|e|] eqn:E3; cbn [rbind fst snd]; [| |done].
  - unfold serialize_justifications. destruct (_ <? _); [done|]. destruct (_ <? _); [done|].
    cbn [rbind]. by destruct (_ =? _).
  - assert (forall rts atts acc e, process_all rts acc atts = Err e ->
      e <> JustificationVotesLengthMismatch /\ e <> ZeroHashInJustificationRoots) as Hgen.
    { clear. intros rts atts. induction atts as [|a atts IH]; intros [s m] e; cbn [process_all]; [done|].
      destruct (process_one rts (s, m) a) as [acc|e'|] eqn:E; cbn [rbind]; [apply IH| |done].
      intros [= <-]. revert E. unfold process_one.
      destruct (is_valid_vote s (at_data a)) as [[]|e''|] eqn:Ev; cbn [rbind negb]; try done.
      - destruct (_ =? 0); [by intros [= <-]|]. destruct (has_oob_bit _ _); [by intros [= <-]|].
        destruct (_ <=? _); [|done].
        destruct (set_justified _ _ _) eqn:Es; cbn [rbind]; [done|by apply set_justified_Err in Es|done].
      - intros [= <-]. destruct (valid_cases s (at_data a)) as [[? _]|[[? _]|[? _]]]; try congruence.
        rewrite H in Ev. injection Ev as <-. done. }
    apply Hgen in E3 as [? ?]. split; congruence.
Qed.

Lemma C13_ignored_pf hash_state hash_header hash_body gt vals s bs b prev a rest s0 s1 s2 :
  lenN vals <= VALIDATOR_REGISTRY_LIMIT ->
  chain hash_state hash_header hash_body gt vals s0 bs ->
  process_slots hash_state s0 (b_slot b) = Ok s1 ->
  process_block_header hash_header hash_body s1 b = Ok s2 ->
  process_attestations s2 prev = Ok s ->
  ~ vote_counts s (at_data a) -> ~ vote_out_of_range s (at_data a) ->
  distinct_data (prev ++ a :: rest) <= MAX_ATTESTATIONS_DATA ->
  process_attestations s2 (prev ++ a :: rest) = process_attestations s2 (prev ++ rest).
Proof.
  intros Hreg Hch H1 H2 H3 Hnc Hno Hd.
  assert (in_block hash_state hash_header hash_body gt vals s bs b prev) as Hib by (exists s0, s1, s2; done).
  destruct (in_block_facts _ _ _ _ _ _ _ _ _ Hib) as (Hsi & Hlim & _ & Hvals & _).
  rewrite <- Hvals in Hreg.
  assert (distinct_data (prev ++ rest) <= distinct_data (prev ++ a :: rest) /\
          distinct_data (prev ++ [a]) <= distinct_data (prev ++ a :: rest)) as [Hd1 Hd2].
  { unfold distinct_data, lenN. split.
    - assert (remove_dups (map at_data (prev ++ rest)) ⊆+ remove_dups (map at_data (prev ++ a :: rest))) as Hs.
      { apply NoDup_submseteq; [apply NoDup_remove_dups|]. intros x.
        rewrite !elem_of_remove_dups, !map_app, !elem_of_app. cbn [map].
        rewrite elem_of_cons. tauto. }
      apply submseteq_length in Hs. lia.
    - assert (remove_dups (map at_data (prev ++ [a])) ⊆+ remove_dups (map at_data (prev ++ a :: rest))) as Hs.
      { apply NoDup_submseteq; [apply NoDup_remove_dups|]. intros x.
        rewrite !elem_of_remove_dups, !map_app, !elem_of_app. cbn [map].
        rewrite !elem_of_cons, elem_of_nil. tauto. }
      apply submseteq_length in Hs. lia. }
  assert (process_attestations s2 (prev ++ [a]) = Ok s) as Ha.
  { rewrite (in_block_app _ _ _ _ _ _ _ _ _ _ _ _ _ Hch H1 H2 H3) by lia.
    by apply att_ignored. }
  rewrite (in_block_app _ _ _ _ _ _ _ _ _ rest _ _ _ Hch H1 H2 H3) by lia.
  replace (prev ++ a :: rest) with ((prev ++ [a]) ++ rest) in Hd |- * by (by rewrite <- app_assoc).
  by rewrite (in_block_app _ _ _ _ _ _ _ _ _ rest _ _ _ Hch H1 H2 Ha) by lia.
Qed.

Lemma C13_rejected_pf hash_state hash_header hash_body gt vals s bs b prev a :
  lenN vals <= VALIDATOR_REGISTRY_LIMIT ->
  in_block hash_state hash_header hash_body gt vals s bs b prev ->
  (vote_out_of_range s (at_data a) -> process_attestations s [a] = Err JustifiedSlotOutOfRange) /\
  (vote_counts s (at_data a) -> (forall v, ~ votes_in v a) ->
     process_attestations s [a] = Err EmptyAggregationBits) /\
  (forall v, vote_counts s (at_data a) -> votes_in v a -> lenN vals <= v ->
     process_attestations s [a] = Err AggregationBitsOutOfBounds).
Proof.
  intros Hreg Hib. destruct (in_block_facts _ _ _ _ _ _ _ _ _ Hib) as (Hsi & Hlim & _ & Hvals & _).
  rewrite <- Hvals in Hreg |- *. split; [|split].
  - by apply att_out_of_range.
  - by apply att_no_voters.
  - intros v. by apply att_oob.
Qed.

Lemma C13_range_pf hash_state hash_header hash_body gt vals s bs b prev t :
  in_block hash_state hash_header hash_body gt vals s bs b prev ->
  status (s_jslots s) (cp_slot (s_finalized s)) t = None <-> b_slot b <= t.
Proof.
  intros Hib. destruct (in_block_facts _ _ _ _ _ _ _ _ _ Hib) as ([Hinv _] & _ & Hlen & _ & _).
  pose proof (li_win _ _ _ Hinv) as Hw. rewrite eq_None_not_Some, status_tracked. lia.
Qed.

Lemma C14_finalization_same_source_refuted_pf :
  exists hash_state hash_header hash_body gt vals s bs,
    chain hash_state hash_header hash_body gt vals s bs /\
    0 < cp_slot (s_finalized s) /\
    ~ two_thirds (lenN vals) (fun v => exists b a,
        b ∈ bs /\ a ∈ b_atts b /\ votes_in v a /\ ad_source (at_data a) = s_finalized s).
Proof.
  exists toy_state, toy_header, toy_body, 1000, (toy_vals 3), mix_state, mix_blocks.
  split; [exact mix_chain|]. split; [rewrite mix_finalized; done|]. exact mix_not_two_thirds.
Qed.

(** A block on top of [ex_state] whose first attestation completes slot 5. *)
Definition next_att : AggAtt := t_att ex_state [false; true; true] 3 5.
Definition next_block : Block := t_block ex_state 8 [next_att].
Definition next_mid : State :=
  match process_slots toy_state ex_state 8 with
  | Ok s1 => match process_block_header toy_header toy_body s1 next_block with
             | Ok s2 => s2 | _ => ex_state end
  | _ => ex_state end.
Lemma next_mid_in_block :
  in_block toy_state toy_header toy_body 1000 (toy_vals 3) next_mid ex_blocks next_block [].
Proof.
  exists ex_state.
  destruct (process_slots toy_state ex_state (b_slot next_block)) as [s1| |] eqn:E1;
    [|vm_compute in E1; done..].
  destruct (process_block_header toy_header toy_body s1 next_block) as [s2| |] eqn:E2;
    [|vm_compute in E1; injection E1 as <-; vm_compute in E2; done..].
  exists s1, s2. split; [exact ex_chain|]. split; [done|]. split; [done|].
  vm_compute in E1. injection E1 as <-. vm_compute in E2. injection E2 as <-.
  vm_compute. reflexivity.
Qed.
Lemma next_counts : vote_counts next_mid (at_data next_att).
Proof.
  unfold vote_counts, on_chain. repeat split; try (vm_compute; done).
  left. vm_compute. done.
Qed.

(** The state while processing the third block of [ex_blocks]. *)
Definition fin_result := t_run (genesis toy_body 1000 (toy_vals 3)) (take 2 ex_specs).
Definition fin_state : State :=
  match fin_result with Some (s, _) => s | None => genesis toy_body 0 [] end.
Definition fin_blocks : list Block :=
  match fin_result with Some (_, bs) => bs | None => [] end.
Lemma fin_chain : t_chain 1000 (toy_vals 3) fin_state fin_blocks.
Proof. apply (t_run_start _ _ (take 2 ex_specs)). vm_compute. reflexivity. Qed.
Definition fin_att : AggAtt := t_att fin_state [true; false; true] 1 2.
Definition fin_block : Block := t_block fin_state 3 [fin_att].
Definition fin_mid : State :=
  match process_slots toy_state fin_state 3 with
  | Ok s1 => match process_block_header toy_header toy_body s1 fin_block with
             | Ok s2 => s2 | _ => fin_state end
  | _ => fin_state end.
Lemma fin_mid_in_block :
  in_block toy_state toy_header toy_body 1000 (toy_vals 3) fin_mid fin_blocks fin_block [].
Proof.
  exists fin_state.
  destruct (process_slots toy_state fin_state (b_slot fin_block)) as [s1| |] eqn:E1;
    [|vm_compute in E1; done..].
  destruct (process_block_header toy_header toy_body s1 fin_block) as [s2| |] eqn:E2;
    [|vm_compute in E1; injection E1 as <-; vm_compute in E2; done..].
  exists s1, s2. split; [exact fin_chain|]. split; [done|]. split; [done|].
  vm_compute in E1. injection E1 as <-. vm_compute in E2. injection E2 as <-.
  vm_compute. reflexivity.
Qed.
