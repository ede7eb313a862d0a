(** Exact effect of one attestation on block processing. *)
From Verif Require Export STFThms.

Lemma distinct_data_singleton a : distinct_data [a] = 1.
Proof. done. Qed.

Notation triv := (fun _ _ : N => True).

Lemma Ok_inj {E A} (a b : A) : @Ok E A a = Ok b -> a = b.
Proof. by intros [= ->]. Qed.

Section Att.
  Context (s : State).
  Context (Hsi : state_inv triv s).
  Context (Hlim : lenN (s_hist s) <= HISTORICAL_ROOTS_LIMIT).
  Context (Hreg : lenN (s_validators s) <= VALIDATOR_REGISTRY_LIMIT).

  Lemma tracked_lt t b : status (s_jslots s) (Fs s) t = Some b -> t < lenN (s_hist s).
  Proof.
    intros H. assert (is_Some (status (s_jslots s) (Fs s) t)) as Hs by eauto.
    apply status_tracked in Hs. destruct Hsi as [Hinv _]. pose proof (li_win _ _ _ Hinv). lia.
  Qed.

  Lemma unjust_gt t : status (s_jslots s) (Fs s) t = Some false -> Fs s < t.
  Proof.
    intros H. destruct (decide (t <= Fs s)); [|lia]. by rewrite status_le in H.
  Qed.

  Lemma valid_iff d : is_valid_vote s d = Ok true <-> vote_counts s d.
  Proof.
    rewrite valid_vote_true. unfold vote_counts, on_chain. rewrite matches_chain_true.
    unfold slot_tracked_unjustified.
    split.
    - intros (H1 & H2 & ((Z1 & Z2 & Z3) & C1 & C2 & C3) & H4 & H5).
      pose proof (tracked_lt _ _ H2). pose proof (unjust_gt _ H2).
      apply justifiable_exact in H5 as [_ H5].
      2:{ unfold HISTORICAL_ROOTS_LIMIT in Hlim. lia. }
      unfold root_at. tauto.
    - intros (H1 & H2 & [Z1 C1] & [Z2 C2] & [Z3 C3] & H4 & H5).
      pose proof (tracked_lt _ _ H2). pose proof (unjust_gt _ H2).
      repeat (split; [done|]).
      apply justifiable_exact; [unfold HISTORICAL_ROOTS_LIMIT in Hlim; lia|]. split; [lia|done].
  Qed.

  Lemma valid_cases d :
    (is_valid_vote s d = Ok true /\ ~ vote_out_of_range s d) \/
    (is_valid_vote s d = Ok false /\ ~ vote_out_of_range s d) \/
    (is_valid_vote s d = Err JustifiedSlotOutOfRange /\ vote_out_of_range s d).
  Proof.
    unfold vote_out_of_range, slot_justified, is_valid_vote.
    rewrite !is_slot_justified_status.
    destruct (status _ _ (cp_slot (ad_source d))) as [[]|]; cbn [rbind negb].
    - destruct (status _ _ (cp_slot (ad_target d))) as [[]|]; cbn [rbind].
      + right. left. split; [done|]. by intros [?|[_ ?]].
      + assert (~ (Some true = @None bool \/ Some true = Some true /\ Some false = None)) as Hn.
        { by intros [?|[_ ?]]. }
        destruct (negb _); [by right; left|]. destruct (_ <=? _); [by right; left|].
        destruct (negb _); [by right; left|]. by left.
      + right. right. split; [done|]. by right.
    - right. left. split; [done|]. by intros [?|[? _]].
    - right. right. split; [done|]. by left.
  Qed.

  Lemma single_unfold a :
    process_attestations s [a] =
    let! sm := process_one (root_to_slot (s_hist s) (Fs s)) (s, tallies_of s) a in
    serialize_justifications sm.1 sm.2.
  Proof.
    rewrite (process_attestations_unfold triv) by done.
    rewrite distinct_data_singleton. cbn [process_all]. unfold MAX_ATTESTATIONS_DATA.
    destruct (process_one _ _ _); done.
  Qed.

  Lemma att_ignored a :
    ~ vote_counts s (at_data a) -> ~ vote_out_of_range s (at_data a) ->
    process_attestations s [a] = Ok s.
  Proof.
    intros Hnv Hno. rewrite single_unfold. unfold process_one.
    destruct (valid_cases (at_data a)) as [[H _]|[[H _]|[_ H]]].
    - by apply valid_iff in H.
    - rewrite H. cbn [rbind negb fst snd].
      destruct Hsi as [Hinv Hcan].
      destruct (serialize_no_panic triv s (tallies_of s)) as [s' Hs']; try done.
      rewrite Hs'. f_equal. by apply serialize_unpack.
    - done.
  Qed.

  Lemma att_out_of_range a :
    vote_out_of_range s (at_data a) ->
    process_attestations s [a] = Err JustifiedSlotOutOfRange.
  Proof.
    intros Ho. rewrite single_unfold. unfold process_one.
    destruct (valid_cases (at_data a)) as [[_ H]|[[_ H]|[H _]]]; [done|done|].
    by rewrite H.
  Qed.

  Lemma has_oob_spec n bits :
    has_oob_bit n bits = true <-> exists v, N.of_nat n <= v /\ bits !! N.to_nat v = Some true.
  Proof.
    unfold has_oob_bit. rewrite existsb_exists. split.
    - intros (b & Hin & ->). apply elem_of_list_In, elem_of_list_lookup in Hin as [i Hi].
      rewrite lookup_drop in Hi. exists (N.of_nat (n + i)). split; [lia|]. rewrite <- Hi. f_equal. lia.
    - intros (v & Hv & Hl). exists true. split; [|done].
      apply elem_of_list_In, elem_of_list_lookup. exists (N.to_nat v - n)%nat.
      rewrite lookup_drop. rewrite <- Hl. f_equal. lia.
  Qed.

  Lemma att_no_voters a :
    vote_counts s (at_data a) -> (forall v, ~ votes_in v a) ->
    process_attestations s [a] = Err EmptyAggregationBits.
  Proof.
    intros Hv Hno. rewrite single_unfold. unfold process_one.
    apply valid_iff in Hv. rewrite Hv. cbn [rbind negb].
    assert (count_true (at_bits a) = 0) as ->; [|done].
    apply count_true_0. intros i Hi. apply (Hno (N.of_nat i)). unfold votes_in.
    by rewrite Nat2N.id.
  Qed.

  Lemma voters_nonzero a v : votes_in v a -> count_true (at_bits a) =? 0 = false.
  Proof.
    intros Hv. apply N.eqb_neq. intros Hz. by apply (proj1 (count_true_0 _) Hz (N.to_nat v)).
  Qed.

  Lemma att_oob a v :
    vote_counts s (at_data a) -> votes_in v a -> lenN (s_validators s) <= v ->
    process_attestations s [a] = Err AggregationBitsOutOfBounds.
  Proof.
    intros Hc Hv Hle. rewrite single_unfold. unfold process_one.
    apply valid_iff in Hc. rewrite Hc. cbn [rbind negb].
    rewrite (voters_nonzero a v) by done.
    assert (has_oob_bit (length (s_validators s)) (at_bits a) = true) as ->; [|done].
    apply has_oob_spec. exists v. done.
  Qed.

  (** The tally list after marking. *)
  Lemma marked_spec a :
    (forall v, votes_in v a -> v < lenN (s_validators s)) ->
    let votes := mark_votes (votes_for s (tallies_of s) (cp_root (ad_target (at_data a)))) (at_bits a) in
    length votes = length (s_validators s) /\
    forall v, votes !! N.to_nat v = Some true <-> v < lenN (s_validators s) /\ voters_after s a v.
  Proof.
    intros Hb. cbn zeta. destruct Hsi as [Hinv Hcan].
    set (r := cp_root (ad_target (at_data a))).
    assert (length (votes_for s (tallies_of s) r) = length (s_validators s)) as Hlen.
    { unfold votes_for. destruct (tallies_of s !! r) eqn:Em; [|by rewrite replicate_length].
      by destruct (li_m _ _ _ Hinv _ _ Em) as [? _]. }
    split; [by rewrite mark_votes_length|].
    intros v. rewrite mark_votes_lookup. unfold voters_after. fold r.
    rewrite (canonical_tallied s r v Hcan).
    assert (votes_for s (tallies_of s) r !! N.to_nat v = Some true <->
      exists vs, tallies_of s !! r = Some vs /\ vs !! N.to_nat v = Some true) as Hvf.
    { unfold votes_for. destruct (tallies_of s !! r) as [vs|] eqn:Em.
      - split; [by eauto|]. intros (vs' & [= <-] & H). done.
      - split; [|by intros (? & ? & _)]. intros H. apply lookup_replicate in H as [? _]. done. }
    rewrite Hvf. unfold votes_in. split.
    - intros [H|[Hv Hbit]].
      + split; [|by left]. apply Hvf in H. apply lookup_lt_Some in H. unfold lenN. lia.
      + split; [unfold lenN; lia|by right].
    - intros [Hv [H|H]]; [by left|right]. split; [|done]. unfold lenN in Hv. lia.
  Qed.

  Lemma att_effect a v0 :
    vote_counts s (at_data a) -> votes_in v0 a ->
    (forall v, votes_in v a -> v < lenN (s_validators s)) ->
    exists s', process_attestations s [a] = Ok s' /\ frame s s' /\ canonical s' /\
      (~ two_thirds (lenN (s_validators s)) (voters_after s a) -> att_effect_below s a s') /\
      (two_thirds (lenN (s_validators s)) (voters_after s a) -> att_effect_reached s a s').
  Proof.
    intros Hc Hv0 Hb.
    destruct (marked_spec a Hb) as [Hlen Hmark]. cbn zeta in Hlen, Hmark.
    set (votes := mark_votes (votes_for s (tallies_of s) (cp_root (ad_target (at_data a)))) (at_bits a)) in *.
    assert (two_thirds (lenN (s_validators s)) (voters_after s a) <->
            2 * lenN (s_validators s) <= 3 * count_true votes) as H23.
    { apply two_thirds_iff; [unfold lenN; by rewrite Hlen|done]. }
    pose proof Hc as Hc'. destruct Hc' as (Hsj & Hun & Hcs & Hct & Hch & Hlt & Hjd).
    assert (Hpos : exists s1 m1, process_one (root_to_slot (s_hist s) (Fs s)) (s, tallies_of s) a = Ok (s1, m1)).
    { destruct (process_one (root_to_slot (s_hist s) (Fs s)) (s, tallies_of s) a) as [[s1 m1]|e|] eqn:E.
      - eauto.
      - exfalso. revert E. unfold process_one.
        apply valid_iff in Hc. rewrite Hc. cbn [rbind negb].
        rewrite (voters_nonzero a v0) by done.
        assert (has_oob_bit (length (s_validators s)) (at_bits a) = false) as ->.
        { apply not_true_iff_false. rewrite has_oob_spec. intros (v & Hle & Hv).
          specialize (Hb v Hv). unfold lenN in Hb. lia. }
        destruct (_ <=? _); [|done].
        destruct (set_justified _ _ _) eqn:Ej; [done| |done].
        intros _. by apply set_justified_Err in Ej.
      - exfalso. by eapply process_one_no_panic, E; apply Hsi. }
    destruct Hpos as (s1 & m1 & Hone).
    pose proof (process_one_spec _ _ _ _ _ _ (N.le_refl _) Hone) as Hstep.
    destruct Hsi as [Hinv Hcan].
    destruct (loop_inv_step triv s (tallies_of s) a s1 m1 Hinv) as (Hinv1 & _ & _); [done|done|].
    destruct (one_step_frame _ _ _ _ _ Hstep) as (Hfr & _ & _).
    destruct (serialize_no_panic triv s1 m1) as [s' Hs'];
      [done|by rewrite (fr_hist _ _ Hfr)|by rewrite (fr_vals _ _ Hfr)|].
    destruct (serialize_spec s1 m1 s') as (Heq & Hcan' & Htal & _); [|done|].
    { intros r v Hrv. by destruct (li_m _ _ _ Hinv1 _ _ Hrv). }
    assert (Htl : forall r v, tallied s' r v <-> exists vs, m1 !! r = Some vs /\ vs !! N.to_nat v = Some true).
    { intros r v. rewrite canonical_tallied by done. by rewrite Htal. }
    assert (Htl0 : forall r v, tallied s r v <-> exists vs, tallies_of s !! r = Some vs /\ vs !! N.to_nat v = Some true).
    { intros r v. by rewrite canonical_tallied. }
    assert (s_justified s' = s_justified s1 /\ s_finalized s' = s_finalized s1 /\ s_jslots s' = s_jslots s1)
      as (EJ & EF & ES) by (rewrite Heq; done).
    exists s'. split; [rewrite single_unfold, Hone; exact Hs'|].
    split. { rewrite Heq. destruct Hfr. by split. }
    split; [done|].
    destruct Hstep as [Hv|votes' Hv Hne Hoob Hvotes Hth
      |votes' s2 Hv Hne Hoob Hvotes Hth (js & Hjs & Heq2) Hnf
      |votes' s2 m' Hv Hne Hoob Hvotes Hth Hsrc Hgap (js & Hjs & Heq2) Hm'].
    - apply valid_iff in Hc. congruence.
    - fold votes in Hvotes. subst votes'. split; [|intros H; apply H23 in H; lia].
      intros _. split; try done. intros r v. rewrite Htl.
      destruct (decide (r = cp_root (ad_target (at_data a)))) as [->|Hner].
      + rewrite lookup_insert. rewrite <- Hmark. split.
        * intros (vs & [= <-] & H). done.
        * eauto.
      + rewrite lookup_insert_ne by done. by rewrite Htl0.
    - fold votes in Hvotes. subst votes'. split; [intros H; exfalso; apply H; by apply H23|].
      intros _. pose proof (set_justified_spec _ _ _ _ Hjs) as Hst.
      assert (~ finalizes s a) as Hnfin.
      { intros [Hf1 Hf2]. destruct Hnf as [?|(t & Ht & Htj)]; [lia|].
        apply (Hf2 t Ht). apply justifiable_exact in Htj; [tauto|].
        pose proof (tracked_lt _ _ Hun). unfold HISTORICAL_ROOTS_LIMIT in Hlim. lia. }
      assert (Fs s' = Fs s) as HFs by (rewrite EF, Heq2; done).
      split.
      + rewrite EJ, Heq2. cbn. unfold max_cp.
        assert (Js s <> cp_slot (ad_target (at_data a))) as Hne'.
        { intros He. pose proof (li_Jst _ _ _ Hinv) as HJst. unfold slot_justified in HJst.
          unfold slot_tracked_unjustified in Hun. congruence. }
        destruct (N.ltb_spec (cp_slot (ad_target (at_data a))) (Js s)),
                 (N.ltb_spec (Js s) (cp_slot (ad_target (at_data a)))); try done; lia.
      + intros t Ht. unfold slot_justified. rewrite HFs, ES, Heq2. cbn.
        rewrite Hst. destruct (N.eqb_spec t (cp_slot (ad_target (at_data a)))); [tauto|].
        split; [by right|]. intros [?|?]; done.
      + unfold slot_justified. rewrite HFs, ES, Heq2. cbn. rewrite Hst, N.eqb_refl. done.
      + done.
      + intros _. rewrite EF, Heq2. done.
      + intros r v. rewrite Htl, Htl0, HFs. split.
        * intros (vs & Hr & Hb'). apply lookup_delete_Some in Hr as [Hner Hr].
          split; [by eauto|]. split; [done|]. by destruct (li_m _ _ _ Hinv _ _ Hr) as (_ & _ & ? & _).
        * intros ((vs & Hr & Hb') & Hner & _). exists vs. split; [|done].
          by rewrite lookup_delete_ne.
    - fold votes in Hvotes. subst votes'. split; [intros H; exfalso; apply H; by apply H23|].
      intros _. pose proof (set_justified_spec _ _ _ _ Hjs) as Hst.
      assert (finalizes s a) as Hfin.
      { split; [done|]. intros t Ht Htj.
        assert (slot_is_justifiable_after t (Fs s) = true) as Htt.
        { apply justifiable_exact; [|split; [lia|done]].
          pose proof (tracked_lt _ _ Hun). unfold HISTORICAL_ROOTS_LIMIT in Hlim. lia. }
        rewrite (Hgap t Ht) in Htt. done. }
      assert (Fs s' = cp_slot (ad_source (at_data a))) as HFs by (rewrite EF, Heq2; done).
      assert (Hsw : forall t, Fs s' < t -> slot_justified s' t <->
        t = cp_slot (ad_target (at_data a)) \/ slot_justified s t).
      { intros t Ht. rewrite HFs in Ht. unfold slot_justified. rewrite HFs, ES, Heq2. cbn.
        rewrite shift_window_spec by lia.
        rewrite Hst. destruct (N.eqb_spec t (cp_slot (ad_target (at_data a)))); [tauto|].
        split; [by right|]. intros [?|?]; done. }
      split.
      + rewrite EJ, Heq2. cbn. unfold max_cp.
        assert (Js s <> cp_slot (ad_target (at_data a))) as Hne'.
        { intros He. pose proof (li_Jst _ _ _ Hinv) as HJst. unfold slot_justified in HJst.
          unfold slot_tracked_unjustified in Hun. congruence. }
        destruct (N.ltb_spec (cp_slot (ad_target (at_data a))) (Js s)),
                 (N.ltb_spec (Js s) (cp_slot (ad_target (at_data a)))); try done; lia.
      + done.
      + apply Hsw; [rewrite HFs; done|by left].
      + intros _. rewrite EF, Heq2. done.
      + done.
      + intros r v. rewrite Htl, Htl0, HFs. split.
        * intros (vs & Hr & Hb'). apply Hm' in Hr as (Hr & Hner & Ht).
          split; [by eauto|]. done.
        * intros ((vs & Hr & Hb') & Hner & Ht). exists vs. split; [|done].
          by apply Hm'.
  Qed.
End Att.

Section InBlock.
  Context (hash_state : State -> H256) (hash_header : Header -> H256)
          (hash_body : list AggAtt -> H256).
  Context (gt : N) (vals : list Validator).
  Notation chain := (chain hash_state hash_header hash_body gt vals).
  Notation in_block := (in_block hash_state hash_header hash_body gt vals).

  Lemma in_block_facts s bs b prev :
    in_block s bs b prev ->
    state_inv triv s /\ lenN (s_hist s) <= HISTORICAL_ROOTS_LIMIT /\
    lenN (s_hist s) = b_slot b /\ s_validators s = vals /\
    exists s2, state_inv triv s2 /\ process_attestations s2 prev = Ok s /\
      forall s0 s1, chain s0 bs -> process_slots hash_state s0 (b_slot b) = Ok s1 ->
        process_block_header hash_header hash_body s1 b = Ok s2.
  Proof.
    intros (s0 & s1 & s2 & Hch & H1 & H2 & H3).
    pose proof (chain_has_facts _ _ _ _ _ _ _ Hch) as Hcf.
    pose proof (header_step _ _ _ _ _ _ _ _ _ _ Hcf H1 H2) as Hhf.
    pose proof (header_state_inv _ _ _ _ _ _ _ _ _ Hcf Hhf) as [Hinv2 Hcan2].
    assert (state_inv triv s2) as Hsi2.
    { split; [|done]. by eapply loop_inv_mono, Hinv2. }
    destruct (process_attestations_inv triv s2 prev s Hsi2) as (Hsi & Hfr & HF & HJ); [done|done|].
    split; [done|]. rewrite (fr_hist _ _ Hfr), (fr_vals _ _ Hfr).
    split; [apply (hf_limit _ _ _ _ _ _ _ _ _ Hhf)|].
    split; [apply (hf_len _ _ _ _ _ _ _ _ _ Hhf)|].
    split; [apply (hf_vals _ _ _ _ _ _ _ _ _ Hhf)|].
    exists s2. split; [done|]. split; [done|].
    intros s0' s1' Hch' H1'. rewrite (chain_det _ _ _ _ _ _ _ _ Hch' Hch) in H1'. congruence.
  Qed.

  Lemma in_block_app s bs b prev rest s0 s1 s2 :
    chain s0 bs -> process_slots hash_state s0 (b_slot b) = Ok s1 ->
    process_block_header hash_header hash_body s1 b = Ok s2 ->
    process_attestations s2 prev = Ok s ->
    distinct_data (prev ++ rest) <= MAX_ATTESTATIONS_DATA ->
    process_attestations s2 (prev ++ rest) = process_attestations s rest.
  Proof.
    intros Hch H1 H2 H3 Hd.
    assert (in_block s bs b prev) as Hib by (exists s0, s1, s2; done).
    destruct (in_block_facts _ _ _ _ Hib) as (_ & _ & _ & _ & s2' & Hsi2 & H3' & Heq).
    rewrite (Heq _ _ Hch H1) in H2. injection H2 as ->.
    eapply (process_attestations_app_inv triv); [done|done|done| |done].
    etrans; [|exact Hd]. unfold distinct_data, lenN.
    assert (remove_dups (map at_data rest) ⊆+ remove_dups (map at_data (prev ++ rest))) as Hsub.
    { apply NoDup_submseteq; [apply NoDup_remove_dups|]. intros x.
      rewrite !elem_of_remove_dups, map_app, elem_of_app. by right. }
    apply submseteq_length in Hsub. lia.
  Qed.
End InBlock.
