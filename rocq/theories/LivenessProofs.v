(** Proofs about liveness (C74). *)
From Verif Require Export Liveness STFMore.

(** ** Distances *)
Lemma pronic_between i j : i * (i + 1) < j * (j + 1) ->
  i * (i + 1) < (i + 1) * (i + 1) < j * (j + 1).
Proof. intros H. assert (i < j) by nia. split; nia. Qed.
Lemma not_square_pronic d : 5 < d -> ~ square_number d -> justifiable_distance d -> exists k, d = k * (k + 1).
Proof. intros H1 H2 [H|[H|H]]; [lia|by destruct H2|done]. Qed.
Lemma stuck_pair d1 d2 : 5 < d1 -> 5 < d2 -> ~ square_number d1 -> ~ square_number d2 -> ~ neighbours d1 d2.
Proof.
  intros H1 H2 H3 H4 (Hlt & J1 & J2 & Hno).
  destruct (not_square_pronic d1) as [i Hi]; [done..|]. destruct (not_square_pronic d2) as [j Hj]; [done..|].
  rewrite Hi, Hj in Hlt. apply pronic_between in Hlt. apply (Hno ((i + 1) * (i + 1))); [lia|].
  right. left. by exists (i + 1).
Qed.
Lemma neighbours_square k : 2 < k -> neighbours (k * k) (k * (k + 1)).
Proof.
  intros Hk. split; [nia|]. split; [right; left; by exists k|]. split; [right; right; by exists k|].
  intros d Hd [H|[[i ->]|[i ->]]].
  - nia.
  - assert (k < i) by nia. nia.
  - assert (i < k) by nia. nia.
Qed.

Section Live.
  Context (hash_state : State -> H256) (hash_header : Header -> H256)
          (hash_body : list AggAtt -> H256).
  Context (gt : N) (vals : list Validator).
  Notation chain := (chain hash_state hash_header hash_body gt vals).
  Notation in_block := (in_block hash_state hash_header hash_body gt vals).
  Notation entries := (chain_entries hash_state hash_header hash_body gt vals).
  Notation gen := (genesis hash_body gt vals).
  Notation process_slots := (process_slots hash_state).
  Notation process_block_header := (process_block_header hash_header hash_body).
  Notation state_transition := (state_transition hash_state hash_header hash_body).
  Notation block_root := (block_root hash_header hash_body).
  Notation last_entry := (last_entry hash_state hash_header hash_body gt vals).
  Notation header_facts := (header_facts hash_state hash_header hash_body gt vals).

  (** ** The step of one attestation *)
  Lemma one_attestation s bs b prev a s' :
    lenN vals <= VALIDATOR_REGISTRY_LIMIT -> in_block s bs b prev -> process_attestations s [a] = Ok s' ->
    (s' = s) \/
    (vote_counts s (at_data a) /\
     (att_effect_below s a s' \/ att_effect_reached s a s')).
  Proof.
    intros Hreg Hib Hok.
    destruct (in_block_facts _ _ _ _ _ _ _ _ _ Hib) as (Hsi & Hlim & _ & Hvals & _).
    rewrite <- Hvals in Hreg.
    destruct (valid_cases s (at_data a)) as [[H _]|[[H Hno]|[_ H]]].
    2:{ left. rewrite (att_ignored s Hsi Hlim Hreg) in Hok; [|rewrite <- (valid_iff s Hsi Hlim Hreg); congruence|done].
        congruence. }
    2:{ exfalso. by rewrite (att_out_of_range s Hsi) in Hok. }
    apply (valid_iff s Hsi Hlim Hreg) in H. right. split; [done|].
    assert (exists v0, votes_in v0 a) as [v0 Hv0].
    { destruct (decide (count_true (at_bits a) = 0)) as [Hz|Hz].
      - exfalso. rewrite (att_no_voters s Hsi Hlim Hreg) in Hok; [done|done|].
        intros v. apply (proj1 (count_true_0 _) Hz).
      - rewrite <- validator_indices_length in Hz.
        destruct (validator_indices (at_bits a)) as [|v l] eqn:E; [done|].
        exists v. unfold votes_in. apply validator_indices_spec. rewrite E. left. }
    assert (forall v, votes_in v a -> v < lenN (s_validators s)) as Hb.
    { intros v Hv. destruct (decide (v < lenN (s_validators s))); [done|].
      exfalso. rewrite (att_oob s Hsi Hlim Hreg a v) in Hok; [done|done|done|lia]. }
    destruct (att_effect s Hsi Hlim Hreg a v0 H Hv0 Hb) as (s1 & H1 & _ & _ & H3 & H4).
    rewrite H1 in Hok. injection Hok as ->.
    destruct (marked_spec s Hsi Hlim Hreg a Hb) as [Hl Hm].
    destruct (decide (2 * lenN (s_validators s) <=
      3 * count_true (mark_votes (votes_for s (tallies_of s) (cp_root (ad_target (at_data a)))) (at_bits a))))
      as [Hd|Hd].
    - right. apply H4. by apply (two_thirds_iff _ _ _ (f_equal N.of_nat Hl) Hm).
    - left. apply H3. intros H'. apply Hd. by apply (two_thirds_iff _ _ _ (f_equal N.of_nat Hl) Hm).
  Qed.

  (** ** No finalization without blocks at square_number distances *)
  Definition stuck (F : N) (s : State) : Prop :=
    Fs s = F /\ forall t, F < t -> slot_justified s t -> justifiable_distance (t - F) /\ exists r, root_at s t = Some r /\ r <> ZERO.

  Lemma distinct_prefix l k : distinct_data l <= distinct_data (l ++ k).
  Proof.
    unfold distinct_data, lenN.
    assert (remove_dups (map at_data l) ⊆+ remove_dups (map at_data (l ++ k))) as Hsub.
    { apply NoDup_submseteq; [apply NoDup_remove_dups|]. intros x.
      rewrite !elem_of_remove_dups, map_app, elem_of_app. by left. }
    apply submseteq_length in Hsub. lia.
  Qed.

  Lemma prefix_accepted s l k s' :
    state_inv triv s -> lenN (s_hist s) <= HISTORICAL_ROOTS_LIMIT -> lenN (s_validators s) <= VALIDATOR_REGISTRY_LIMIT ->
    process_attestations s (l ++ k) = Ok s' -> exists s1, process_attestations s l = Ok s1.
  Proof.
    intros Hsi Hh Hv H. rewrite (process_attestations_unfold triv) in H |- * by done.
    pose proof (distinct_prefix l k). destruct Hsi as [Hinv Hcan].
    destruct (N.ltb_spec MAX_ATTESTATIONS_DATA (distinct_data (l ++ k))); [done|].
    destruct (N.ltb_spec MAX_ATTESTATIONS_DATA (distinct_data l)); [lia|].
    rewrite process_all_app in H. apply rbind_Ok in H as (sm & H & _). apply rbind_Ok in H as ([s1 m1] & H & _).
    destruct (process_all_inv triv (Fs s) l s (tallies_of s) s1 m1) as (Hinv1 & HF & HJ & Hfr & Hr & Hvs); try done.
    rewrite H. cbn [rbind fst snd]. eapply serialize_no_panic; [done|by rewrite (fr_hist _ _ Hfr)|by rewrite (fr_vals _ _ Hfr)].
  Qed.
  Lemma no_attestations s : state_inv triv s -> lenN (s_hist s) <= HISTORICAL_ROOTS_LIMIT -> lenN (s_validators s) <= VALIDATOR_REGISTRY_LIMIT ->
    process_attestations s [] = Ok s.
  Proof.
    intros [Hinv Hcan] Hh Hv. rewrite (process_attestations_unfold triv) by done. cbn [process_all rbind fst snd].
    destruct (serialize_no_panic triv s (tallies_of s)) as [s3 Hs3]; try done.
    rewrite Hs3. change (distinct_data []) with 0. cbn. f_equal. by apply serialize_unpack.
  Qed.

  Lemma stuck_one F s bs b prev a s' :
    lenN vals <= VALIDATOR_REGISTRY_LIMIT -> in_block s bs b prev -> process_attestations s [a] = Ok s' ->
    (forall t r, F < t -> root_at s t = Some r -> r <> ZERO -> 5 < t - F /\ ~ square_number (t - F)) ->
    stuck F s -> stuck F s' /\ root_at s' = root_at s.
  Proof.
    intros Hreg Hib Hok Hno [HF Hj].
    assert (frame s s') as Hfr by (by eapply process_attestations_frame).
    assert (root_at s' = root_at s) as Hr by (unfold root_at; by rewrite (fr_hist _ _ Hfr)).
    split; [|done].
    destruct (one_attestation _ _ _ _ _ _ Hreg Hib Hok) as [->|(Hc & [E|E])]; [done| |].
    - split; [by rewrite (ab_fin _ _ _ E)|]. intros t Ht Hst. rewrite Hr. apply Hj; [done|].
      unfold slot_justified in *. by rewrite (ab_fin _ _ _ E), (ab_win _ _ _ E) in Hst.
    - destruct Hc as (Csj & Cun & Cs & Ct & _ & Clt & Cjd).
      assert (~ finalizes s a) as Hnf.
      { intros [Hf1 Hf2]. rewrite HF in *. destruct (Hj _ Hf1 Csj) as [Hjd _].
        assert (F < cp_slot (ad_target (at_data a))) as Hft by lia.
        destruct (Hno _ _ Hf1 (proj2 Cs) (proj1 Cs)). destruct (Hno _ _ Hft (proj2 Ct) (proj1 Ct)).
        apply (stuck_pair (cp_slot (ad_source (at_data a)) - F) (cp_slot (ad_target (at_data a)) - F)); try done.
        split; [lia|]. split; [done|]. split; [done|]. intros d Hd Hjd'. apply (Hf2 (d + F)); [lia|].
        by replace (d + F - F) with d by lia. }
      pose proof (ar_nofin _ _ _ E Hnf) as Hfin.
      split; [by rewrite Hfin|]. intros t Ht Hst. rewrite Hr. apply (ar_status _ _ _ E) in Hst; [|by rewrite Hfin, HF].
      destruct Hst as [->|Hst]; [|by apply Hj]. rewrite HF in Cjd. split; [done|]. exists (cp_root (ad_target (at_data a))).
      split; [apply Ct|apply Ct].
  Qed.

  Lemma stuck_block F s bs b s' :
    lenN vals <= VALIDATOR_REGISTRY_LIMIT -> chain s bs -> state_transition s b = Ok s' ->
    (forall t r, F < t -> root_at s' t = Some r -> r <> ZERO -> 5 < t - F /\ ~ square_number (t - F)) ->
    stuck F s -> stuck F s'.
  Proof.
    intros Hreg Hch Hst Hno Hs.
    pose proof (chain_has_facts _ _ _ _ _ _ _ Hch) as Hcf.
    destruct (state_transition_inv _ _ _ _ _ _ _ _ _ Hcf Hst) as (s1 & s2 & H1 & H2 & H3 & Hhf & Hfr & _).
    assert (root_at s' = root_at s2) as Hr by (unfold root_at; by rewrite (fr_hist _ _ Hfr)).
    rewrite Hr in Hno.
    assert (stuck F s2) as Hs2.
    { destruct Hs as [HF Hj]. pose proof (hf_F _ _ _ _ _ _ _ _ _ Hhf) as HF2. split; [by rewrite HF2|].
      intros t Ht Htj. destruct (hf_js _ _ _ _ _ _ _ _ _ Hhf) as (js & Hjs & Hjs2).
      unfold slot_justified in Htj. rewrite HF2, Hjs2, (extend_to_slot_spec _ _ _ _ Hjs) in Htj.
      destruct (status (s_jslots s) (Fs s) t) as [[]|] eqn:E; [|done|by destruct (t <=? _)].
      destruct (Hj t Ht E) as (Hd & r & Hr1 & Hr2). split; [done|]. exists r. split; [|done]. unfold root_at in *.
      eapply prefix_lookup; [done|]. by eapply header_prefix. }
    clear Hs.
    assert (distinct_data (b_atts b) <= MAX_ATTESTATIONS_DATA) as Hd.
    { unfold process_attestations in H3. destruct (N.ltb_spec MAX_ATTESTATIONS_DATA (distinct_data (b_atts b))); [done|lia]. }
    pose proof (header_state_inv _ _ _ _ _ _ _ _ _ Hcf Hhf) as [Hinv2 Hcan2].
    assert (state_inv triv s2) as Hsi2.
    { split; [|done]. by eapply loop_inv_mono, Hinv2. }
    pose proof (hf_limit _ _ _ _ _ _ _ _ _ Hhf) as Hlim.
    assert (lenN (s_validators s2) <= VALIDATOR_REGISTRY_LIMIT) as Hv2 by (by rewrite (hf_vals _ _ _ _ _ _ _ _ _ Hhf)).
    assert (forall prev rest, prev ++ rest = b_atts b -> forall sp, process_attestations s2 prev = Ok sp ->
      stuck F sp /\ root_at sp = root_at s2) as Hgen; [|by eapply (Hgen (b_atts b) []); [by rewrite app_nil_r|]].
    induction prev as [|a prev IH] using rev_ind; intros rest Heq sp Hsp.
    - rewrite no_attestations in Hsp by done. by injection Hsp as <-.
    - rewrite <- app_assoc in Heq.
      assert (distinct_data (prev ++ [a]) <= distinct_data (b_atts b)) as Hdpa.
      { rewrite <- Heq, app_assoc. apply distinct_prefix. }
      destruct (prefix_accepted s2 prev [a] sp) as [sq Hsq]; [done..|].
      destruct (IH _ Heq sq Hsq) as [Hst' Hrt].
      rewrite (in_block_app hash_state hash_header hash_body gt vals sq bs b prev [a] s s1 s2) in Hsp; [|done..|lia].
      destruct (stuck_one F sq bs b prev a sp) as [I1 I2]; try done.
      + exists s, s1, s2. done.
      + by rewrite Hrt.
      + split; [done|]. by rewrite I2.
  Qed.

  Lemma stuck_chain F s bs s' bs' :
    lenN vals <= VALIDATOR_REGISTRY_LIMIT -> chain s bs -> chain s' (bs ++ bs') -> stuck F s ->
    (forall b, b ∈ bs ++ bs' -> F < b_slot b -> 5 < b_slot b - F /\ ~ square_number (b_slot b - F)) ->
    stuck F s'.
  Proof.
    intros Hreg Hch. revert s'. induction bs' as [|b bs' IH] using rev_ind; intros s' Hch' Hs Hno.
    - rewrite app_nil_r in Hch'. by rewrite (chain_det _ _ _ _ _ _ _ _ Hch' Hch).
    - rewrite app_assoc in Hch', Hno. apply chain_snoc_inv in Hch' as (s0 & H0 & Hst).
      eapply stuck_block; [done|exact H0|exact Hst| |].
      + intros t r Ht Hr Hz. assert (chain s' ((bs ++ bs') ++ [b])) as Hch2 by (by eapply chain_step).
        assert ((t, r) ∈ entries ((bs ++ bs') ++ [b])) as Hin by (eapply root_at_entry; [done|done|by left]).
        unfold chain_entries in Hin. apply elem_of_cons in Hin as [Heq|Hin]; [injection Heq as -> _; lia|].
        apply elem_of_list_fmap in Hin as (b' & [= -> _] & Hb'). by apply Hno.
      + apply (IH s0); [done|done|]. intros b' Hb'. apply Hno. apply elem_of_app. by left.
  Qed.
  Lemma stuck_gen : stuck 0 gen.
  Proof.
    split; [done|]. intros t Ht Hj. exfalso. unfold slot_justified in Hj. cbn in Hj. rewrite status_gt in Hj by done.
    by rewrite lookup_nil in Hj.
  Qed.

  Lemma stuck_pf s bs s' bs' :
    lenN vals <= VALIDATOR_REGISTRY_LIMIT -> chain s bs -> chain s' (bs ++ bs') ->
    (forall t, Fs s < t -> slot_justified s t -> justifiable_distance (t - Fs s)) ->
    (forall b, b ∈ bs ++ bs' -> Fs s < b_slot b -> 5 < b_slot b - Fs s /\ ~ square_number (b_slot b - Fs s)) ->
    Fs s' = Fs s.
  Proof.
    intros Hreg H1 H2 Hj Hno. apply (stuck_chain (Fs s) s bs s' bs' Hreg H1 H2); [|done]. split; [done|].
    intros t Ht Htj. split; [by apply Hj|]. destruct (decide (bs = [])) as [->|Hne].
    - apply chain_nil in H1 as ->. exact (proj2 (proj2 stuck_gen t Ht Htj)).
    - destruct (chain_inv _ _ _ _ _ _ _ H1 Hne) as [Hinv _]. destruct (li_sup _ _ _ Hinv t Ht Htj) as (r & ? & ? & _). eauto.
  Qed.

  (** ** Extending a chain *)
  Lemma can_extend s bs t atts :
    chain s bs -> 0 < lenN vals -> s_slot s < t -> t <= HISTORICAL_ROOTS_LIMIT ->
    exists s1 s2, process_slots s t = Ok s1 /\
      (forall sr, process_block_header s1 (mkBlock t (t mod lenN vals) (last_entry bs).2 sr atts) = Ok s2) /\
      forall s', process_attestations s2 atts = Ok s' ->
        chain s' (bs ++ [mkBlock t (t mod lenN vals) (last_entry bs).2 (hash_state s') atts]).
  Proof.
    intros Hch Hn Hlt Hlim. pose proof (chain_has_facts _ _ _ _ _ _ _ Hch) as Hcf.
    pose proof (cf_root _ _ _ _ _ _ _ Hcf) as Hroot. pose proof (cf_slot _ _ _ _ _ _ _ Hcf) as Hsl.
    pose proof (cf_len _ _ _ _ _ _ _ Hcf) as Hlen. pose proof (cf_vals _ _ _ _ _ _ _ Hcf) as Hvals.
    set (s1 := with_slot (with_header s (set_state_root (s_header s) (hash_state s))) t).
    assert (process_slots s t = Ok s1) as E1.
    { unfold STF.process_slots. rewrite (cf_sr _ _ _ _ _ _ _ Hcf), N.eqb_refl.
      destruct (N.leb_spec t (s_slot s)); [lia|done]. }
    destruct (extend_to_slot_ok (s_jslots s) (Fs s) (t - 1)) as [js Hjs]; [lia|].
    assert (exists s2, forall sr, process_block_header s1 (mkBlock t (t mod lenN vals) (last_entry bs).2 sr atts) = Ok s2) as [s2 E2].
    { destruct (h_slot (s_header s) =? 0) eqn:Ez; eexists; intros sr; unfold STF.process_block_header, current_proposer;
      cbn [b_slot b_proposer b_parent b_atts]; unfold s1;
      cbn [s_slot with_slot s_header with_header s_validators set_state_root h_slot s_hist s_justified s_finalized s_jslots with_hist];
      rewrite N.eqb_refl; cbn [negb]; (destruct (N.leb_spec t (h_slot (s_header s))); [lia|]);
      rewrite Hvals; (destruct (N.ltb_spec 0 (lenN vals)); [|lia]); rewrite N.eqb_refl; cbn [negb];
      (replace (hash_header (set_state_root (s_header s) (hash_state s))) with (last_entry bs).2
        by (by rewrite <- Hroot)); rewrite N.eqb_refl; cbn [negb];
      (destruct (N.ltb_spec HISTORICAL_ROOTS_LIMIT (lenN (s_hist s) + 1 + (t - h_slot (s_header s) - 1))); [lia|]);
      rewrite Ez; cbn [s_jslots with_hist with_finalized with_justified with_slot with_header s_finalized cp_slot];
      rewrite Hjs; cbn [rbind]; reflexivity. }
    exists s1, s2. split; [done|]. split; [done|]. intros s' H.
    apply (chain_step _ _ _ _ _ s); [done|]. unfold STF.state_transition. cbn [b_slot]. rewrite E1. cbn [rbind]. unfold process_block.
    rewrite E2. cbn [rbind b_atts]. rewrite H. cbn [rbind b_state_root]. by rewrite N.eqb_refl.
  Qed.

  (** ** Votes *)
  Definition bits_of (V : list N) : Bits := map (fun i => bool_decide (N.of_nat i ∈ V)) (seq 0 (length vals)).
  Lemma bits_of_signed V d : (forall v, v ∈ V -> v < lenN vals) -> signed_by V (mkAtt (bits_of V) d).
  Proof.
    intros HV v. unfold votes_in, bits_of. cbn [at_bits]. rewrite list_lookup_fmap.
    destruct (decide (v < lenN vals)) as [Hv|Hv].
    - unfold lenN in Hv. rewrite lookup_seq_lt by lia. cbn. rewrite N2Nat.id. split.
      + intros [= H]. by apply bool_decide_eq_true in H.
      + intros H. f_equal. by apply bool_decide_eq_true.
    - unfold lenN in Hv. rewrite lookup_seq_ge by lia. cbn. split; [done|]. intros H. apply HV in H. unfold lenN in H. lia.
  Qed.

  Lemma step_vote s bs t src V :
    (forall h, hash_header h <> ZERO) -> lenN vals <= VALIDATOR_REGISTRY_LIMIT -> 0 < lenN vals -> quorum (lenN vals) V ->
    chain s bs -> bs <> [] -> s_slot s < t -> t <= HISTORICAL_ROOTS_LIMIT ->
    slot_justified s (cp_slot src) -> on_chain s src -> cp_slot src < s_slot s ->
    Fs s < s_slot s -> justifiable_distance (s_slot s - Fs s) ->
    let tgt := mkCp (last_entry bs).2 (s_slot s) in
    let a := mkAtt (bits_of V) (mkAD (s_slot s) tgt tgt src) in
    exists b s', chain s' (bs ++ [b]) /\ b_slot b = t /\ b_atts b = [a] /\ s_slot s' = t /\
      s_justified s' = tgt /\ slot_justified s' (s_slot s) /\ on_chain s' tgt /\
      ((forall u, cp_slot src < u < s_slot s -> ~ justifiable_distance (u - Fs s)) -> Fs s < cp_slot src -> s_finalized s' = src) /\
      (forall u, cp_slot src < u < s_slot s -> justifiable_distance (u - Fs s) -> s_finalized s' = s_finalized s).
  Proof.
    intros Hnz Hreg Hn (HV1 & HV2 & HV3) Hch Hne Hlt Hlim Hsj Hoc Hsrc HF Hjd tgt a.
    pose proof (chain_has_facts _ _ _ _ _ _ _ Hch) as Hcf.
    destruct (can_extend s bs t [a] Hch Hn Hlt Hlim) as (s1 & s2 & E1 & E2 & E3).
    set (b := mkBlock t (t mod lenN vals) (last_entry bs).2 0 [a]).
    pose proof (header_step _ _ _ _ _ _ _ _ _ _ Hcf (E1 : process_slots s (b_slot b) = Ok s1) (E2 0 : process_block_header s1 b = Ok s2)) as Hhf.
    pose proof (header_state_inv _ _ _ _ _ _ _ _ _ Hcf Hhf) as [Hinv2 Hcan2].
    assert (state_inv triv s2) as Hsi2 by (split; [by eapply loop_inv_mono, Hinv2|done]).
    pose proof (hf_limit _ _ _ _ _ _ _ _ _ Hhf) as Hlim2. pose proof (hf_vals _ _ _ _ _ _ _ _ _ Hhf) as Hv2.
    pose proof (hf_F _ _ _ _ _ _ _ _ _ Hhf) as HF2. pose proof (header_prefix _ _ _ _ _ _ _ _ _ Hhf) as Hpre.
    assert (in_block s2 bs b []) as Hib.
    { exists s, s1, s2. split; [done|]. split; [done|]. split; [apply E2|]. apply no_attestations; [done|done|by rewrite Hv2]. }
    destruct (hf_js _ _ _ _ _ _ _ _ _ Hhf) as (js & Hjs & Hjs2).
    pose proof (extend_to_slot_spec _ _ _ _ Hjs) as Hst. cbn [b_slot b] in Hst.
    destruct (chain_inv _ _ _ _ _ _ _ Hch Hne) as [Hinv _].
    pose proof (cf_len _ _ _ _ _ _ _ Hcf) as Hlen. pose proof (cf_slot _ _ _ _ _ _ _ Hcf) as Hsl.
    pose proof (li_win _ _ _ Hinv) as Hwin.
    assert (on_chain s2 tgt) as Htgt.
    { assert (last_entry bs = (s_slot s, (last_entry bs).2)) as Hle by (rewrite Hsl, <- (cf_root _ _ _ _ _ _ _ Hcf); done).
      split.
      - cbn [tgt cp_root]. rewrite <- (cf_root _ _ _ _ _ _ _ Hcf). apply Hnz.
      - unfold root_at. cbn [tgt cp_slot cp_root]. rewrite (hf_hist _ _ _ _ _ _ _ _ _ Hhf). unfold lenN in Hlen.
        rewrite lookup_app_r by lia. by replace (N.to_nat (s_slot s) - length (s_hist s))%nat with 0%nat by lia. }
    assert (vote_counts s2 (at_data a)) as Hc.
    { cbn [a at_data]. unfold vote_counts. cbn [ad_source ad_target ad_head tgt cp_slot]. fold tgt. rewrite HF2.
      assert (on_chain s2 src) as Hoc2.
      { split; [apply Hoc|]. unfold root_at. eapply prefix_lookup; [apply Hoc|done]. }
      assert (slot_justified s2 (cp_slot src)) as Hsj2.
      { unfold slot_justified in *. by rewrite HF2, Hjs2, Hst, Hsj. }
      assert (slot_tracked_unjustified s2 (s_slot s)) as Hun2; [|done].
      unfold slot_tracked_unjustified. rewrite HF2, Hjs2, Hst.
      assert (status (s_jslots s) (Fs s) (s_slot s) = None) as ->.
      { rewrite status_gt by lia. apply lookup_ge_None_2. unfold lenN in *. lia. }
      destruct (N.leb_spec (s_slot s) (t - 1)); [done|lia]. }
    pose proof (bits_of_signed V (mkAD (s_slot s) tgt tgt src) HV2) as Hsig. fold a in Hsig.
    assert (exists v0, v0 ∈ V) as [v0 Hv0].
    { destruct V as [|v V]; [change (lenN (@nil N)) with 0 in HV3; lia|]. exists v. left. }
    destruct (C07_attestation_effect_pf hash_state hash_header hash_body gt vals s2 bs b [] a v0) as (s' & H1 & Hfr & _ & H4); try done.
    { by apply Hsig. }
    { intros v Hv. by apply HV2, Hsig. }
    destruct H4 as [R1 R2 R3 R4 R5 _].
    { exists V. split; [done|]. split; [|done]. intros v Hv. split; [by apply HV2|]. right. by apply Hsig. }
    cbn [a at_data ad_target ad_source tgt cp_slot] in *. fold tgt in R1.
    exists (mkBlock t (t mod lenN vals) (last_entry bs).2 (hash_state s') [a]), s'.
    split; [by apply E3|]. split; [done|]. split; [done|].
    split; [rewrite (fr_slot _ _ Hfr); apply (hf_slot _ _ _ _ _ _ _ _ _ Hhf)|].
    split; [|split; [done|split; [|split]]].
    - rewrite R1. pose proof (hf_J _ _ _ _ _ _ _ _ _ Hhf) as HJ2. destruct (chain_order _ _ _ _ _ _ _ Hch) as [_ HJ].
      destruct (N.ltb_spec (Js s2) (s_slot s)); [done|]. lia.
    - destruct Htgt. split; [done|]. unfold root_at in *. by rewrite (fr_hist _ _ Hfr).
    - intros Hno Hgt. apply R4. split; [by rewrite HF2|]. intros u Hu. rewrite HF2. cbn [a at_data ad_target ad_source tgt cp_slot] in Hu. by apply Hno.
    - intros u Hu Hju. rewrite R5.
      + pose proof (hf_roots _ _ _ _ _ _ _ _ _ Hhf) as Hr. destruct (N.eqb_spec (h_slot (s_header s)) 0); [lia|]. apply Hr.
      + intros [_ Hno]. apply (Hno u); [done|]. by rewrite HF2.
  Qed.

  Lemma finalizes_pf s bs V d0 d1 d2 t3 :
    (forall h, hash_header h <> ZERO) -> lenN vals <= VALIDATOR_REGISTRY_LIMIT -> 0 < lenN vals -> quorum (lenN vals) V ->
    chain s bs -> justifiable_distance d0 -> d0 < d1 -> neighbours d1 d2 -> s_slot s < Fs s + d0 ->
    Fs s + d2 < t3 -> t3 <= HISTORICAL_ROOTS_LIMIT ->
    exists b1 b2 b3 a2 a3 s', chain s' (bs ++ [b1; b2; b3]) /\
      b_slot b1 = Fs s + d1 /\ b_slot b2 = Fs s + d2 /\ b_slot b3 = t3 /\
      b_atts b1 = [] /\ b_atts b2 = [a2] /\ b_atts b3 = [a3] /\ signed_by V a2 /\ signed_by V a3 /\
      s_finalized s' = mkCp (block_root b1) (b_slot b1) /\
      s_justified s' = mkCp (block_root b2) (b_slot b2).
  Proof.
    intros Hnz Hreg Hn HV Hch J0 H01 (H12 & J1 & J2 & Hno) Hs0 Ht3 Hlim.
    destruct (can_extend s bs (Fs s + d1) [] Hch Hn) as (p1 & p2 & E1 & E2 & E3); [lia|lia|].
    pose proof (chain_has_facts _ _ _ _ _ _ _ Hch) as Hcf.
    set (b0 := mkBlock (Fs s + d1) ((Fs s + d1) mod lenN vals) (last_entry bs).2 0 []).
    pose proof (header_step _ _ _ _ _ _ _ _ _ _ Hcf (E1 : process_slots s (b_slot b0) = Ok p1) (E2 0 : process_block_header p1 b0 = Ok p2)) as Hhf.
    pose proof (header_state_inv _ _ _ _ _ _ _ _ _ Hcf Hhf) as [Hinv2 Hcan2].
    assert (state_inv triv p2) as Hsi2 by (split; [by eapply loop_inv_mono, Hinv2|done]).
    pose proof (no_attestations p2 Hsi2 (hf_limit _ _ _ _ _ _ _ _ _ Hhf)) as Hna.
    rewrite (hf_vals _ _ _ _ _ _ _ _ _ Hhf) in Hna. specialize (Hna Hreg).
    pose proof (E3 _ Hna) as Hch1. set (b1 := mkBlock _ _ _ _ _) in Hch1.
    pose proof (hf_slot _ _ _ _ _ _ _ _ _ Hhf) as Hsl1. cbn [b_slot b0] in Hsl1.
    pose proof (hf_F _ _ _ _ _ _ _ _ _ Hhf) as HF1. pose proof (hf_J _ _ _ _ _ _ _ _ _ Hhf) as HJ1.
    destruct (chain_order _ _ _ _ _ _ _ Hch) as [_ HJs].
    assert (bs ++ [b1] <> []) as Hne1 by (by destruct bs).
    destruct (chain_checkpoints _ _ _ _ _ _ _ Hch1 Hne1) as (_ & _ & _ & Hrj & Hrz).
    destruct Hrz as [_ Hrz]; [apply Hnz|].
    destruct (chain_inv _ _ _ _ _ _ _ Hch1 Hne1) as [Hinv1 _].
    destruct (step_vote p2 (bs ++ [b1]) (Fs s + d2) (s_justified p2) V) as (b2 & s2 & Hch2 & Hb2 & Ha2 & Hsl2 & Hj2 & Hjs2 & Hoc2 & _ & Hnf2); try done.
    { lia. } { lia. } { apply (li_Jst _ _ _ Hinv1). } { rewrite HJ1, Hsl1. lia. } { rewrite HF1, Hsl1. lia. }
    { rewrite HF1, Hsl1. by replace (Fs s + d1 - Fs s) with d1 by lia. }
    rewrite Hsl1, HF1, HJ1 in Hnf2. specialize (Hnf2 (Fs s + d0)).
    assert (s_finalized s2 = s_finalized p2) as HF2.
    { apply Hnf2; [lia|]. by replace (Fs s + d0 - Fs s) with d0 by lia. }
    clear Hnf2. rewrite Hsl1 in Hjs2, Hj2, Hoc2. rewrite last_entry_snoc in Hj2, Hoc2. cbn [snd] in Hj2, Hoc2.
    destruct (step_vote s2 ((bs ++ [b1]) ++ [b2]) t3 (mkCp (block_root b1) (Fs s + d1)) V) as (b3 & s3 & Hch3 & Hb3 & Ha3 & Hsl3 & Hj3 & _ & _ & Hf3 & _); try done.
    { by destruct bs. } { lia. } { cbn [cp_slot]. lia. } { rewrite HF2, HF1, Hsl2. lia. }
    { rewrite HF2, HF1, Hsl2. by replace (Fs s + d2 - Fs s) with d2 by lia. }
    rewrite last_entry_snoc in Hj3. cbn [snd] in Hj3.
    exists b1, b2, b3. eexists _, _, s3. rewrite <- !app_assoc in Hch3. split; [exact Hch3|].
    split; [done|]. split; [done|]. split; [done|]. split; [done|]. split; [exact Ha2|]. split; [exact Ha3|].
    split; [apply bits_of_signed, HV|]. split; [apply bits_of_signed, HV|]. split.
    - apply Hf3; cbn [cp_slot]; rewrite HF2, HF1; [|lia]. rewrite Hsl2. intros u Hu Hju. apply (Hno (u - Fs s)); [lia|done].
    - rewrite Hj3, Hsl2, Hb2. done.
  Qed.

  Lemma chain_proposer s bs b : chain s bs -> b ∈ bs -> b_proposer b = b_slot b mod lenN vals.
  Proof.
    induction 1 as [|s bs b' s' Hch IH Hst]; [by intros ?%elem_of_nil|].
    rewrite elem_of_app, elem_of_list_singleton. intros [?| ->]; [by apply IH|].
    apply state_transition_links in Hst as (_ & _ & _ & _ & _ & _ & _ & _ & _ & ->).
    by rewrite (cf_vals _ _ _ _ _ _ _ (chain_has_facts _ _ _ _ _ _ _ Hch)).
  Qed.
  Lemma finalizes_by_pf s bs V d0 d1 d2 t3 :
    (forall h, hash_header h <> ZERO) -> lenN vals <= VALIDATOR_REGISTRY_LIMIT -> 0 < lenN vals -> quorum (lenN vals) V ->
    chain s bs -> justifiable_distance d0 -> d0 < d1 -> neighbours d1 d2 -> s_slot s < Fs s + d0 ->
    Fs s + d2 < t3 -> t3 <= HISTORICAL_ROOTS_LIMIT ->
    (forall t, t ∈ [Fs s + d1; Fs s + d2; t3] -> t mod lenN vals ∈ V) ->
    exists b1 b2 b3 s', chain s' (bs ++ [b1; b2; b3]) /\ only_by V [b1; b2; b3] /\
      s_slot s < b_slot b1 /\ b_slot b3 = t3 /\
      s_finalized s' = mkCp (block_root b1) (b_slot b1) /\ s_justified s' = mkCp (block_root b2) (b_slot b2).
  Proof.
    intros Hnz Hreg Hn HV Hch J0 H01 H12 Hs0 Ht3 Hlim Hp.
    destruct (finalizes_pf s bs V d0 d1 d2 t3) as (b1 & b2 & b3 & a2 & a3 & s' & Hch' & S1 & S2 & S3 & A1 & A2 & A3 & V2 & V3 & HF & HJ); try done.
    exists b1, b2, b3, s'. split; [done|]. split; [|split; [lia|done]].
    intros b Hb. split.
    - rewrite (chain_proposer _ _ b Hch') by (apply elem_of_app; by right). apply Hp.
      rewrite !elem_of_cons, elem_of_nil in Hb. rewrite !elem_of_cons. destruct Hb as [->|[->|[->|[]]]]; auto.
    - intros a v Ha Hv. rewrite !elem_of_cons, elem_of_nil in Hb. destruct Hb as [->|[->|[->|[]]]].
      + rewrite A1 in Ha. by apply elem_of_nil in Ha.
      + rewrite A2 in Ha. apply elem_of_list_singleton in Ha as ->. by apply V2.
      + rewrite A3 in Ha. apply elem_of_list_singleton in Ha as ->. by apply V3.
  Qed.
  Lemma always_pf s bs V :
    (forall h, hash_header h <> ZERO) -> lenN vals <= VALIDATOR_REGISTRY_LIMIT -> 0 < lenN vals -> quorum (lenN vals) V ->
    chain s bs -> s_slot s <= 250000 ->
    exists b1 b2 b3 s', chain s' (bs ++ [b1; b2; b3]) /\
      (forall b a, b ∈ [b1; b2; b3] -> a ∈ b_atts b -> signed_by V a) /\
      s_slot s < b_slot b1 /\ s_finalized s' = mkCp (block_root b1) (b_slot b1).
  Proof.
    intros Hnz Hreg Hn HV Hch Hsl. destruct (chain_order _ _ _ _ _ _ _ Hch) as [Ho1 Ho2].
    set (d := s_slot s - Fs s). set (r := N.sqrt d).
    assert (r * r <= d < (r + 1) * (r + 1)) as Hr.
    { pose proof (N.sqrt_spec d ltac:(lia)) as Hr. fold r in Hr. cbn zeta in Hr. rewrite <- !N.add_1_r in Hr. lia. }
    assert (r <= 500) by nia.
    destruct (finalizes_pf s bs V ((r + 1) * (r + 1)) ((r + 3) * (r + 3)) ((r + 3) * (r + 3 + 1)) (Fs s + (r + 3) * (r + 3 + 1) + 1))
      as (b1 & b2 & b3 & a2 & a3 & s' & Hch' & S1 & S2 & S3 & A1 & A2 & A3 & V2 & V3 & HF & HJ); try done.
    - right. left. by exists (r + 1).
    - nia.
    - apply neighbours_square. lia.
    - lia.
    - lia.
    - unfold HISTORICAL_ROOTS_LIMIT. nia.
    - exists b1, b2, b3, s'. split; [done|]. split; [|split; [|done]].
      + intros b a Hb Ha. rewrite !elem_of_cons, elem_of_nil in Hb. destruct Hb as [->|[->|[->|[]]]].
        * rewrite A1 in Ha. by apply elem_of_nil in Ha.
        * rewrite A2 in Ha. by apply elem_of_list_singleton in Ha as ->.
        * rewrite A3 in Ha. by apply elem_of_list_singleton in Ha as ->.
      + rewrite S1. assert ((r + 1) * (r + 1) <= (r + 3) * (r + 3)) by nia. lia.
  Qed.

  (** ** Sixteen validators of which four are missing *)
  Lemma square_mod_16 d : square_number d -> d mod 16 ∈ missing.
  Proof.
    intros [k ->]. rewrite N.mul_mod by done.
    assert (k mod 16 < 16) as Hk by (by apply N.mod_lt). remember (k mod 16) as x eqn:Hx. clear Hx k.
    assert (bool_decide (x * x mod 16 ∈ missing) = true) as H; [|by apply bool_decide_eq_true in H].
    assert (x = 0 \/ x = 1 \/ x = 2 \/ x = 3 \/ x = 4 \/ x = 5 \/ x = 6 \/ x = 7 \/ x = 8 \/ x = 9 \/ x = 10 \/ x = 11 \/ x = 12 \/
            x = 13 \/ x = 14 \/ x = 15) as Hc by lia.
    destruct Hc as [->|[->|[->|[->|[->|[->|[->|[->|[->|[->|[->|[->|[->|[->|[->| ->]]]]]]]]]]]]]]]; vm_compute; reflexivity.
  Qed.
  Lemma present_quorum : quorum 16 present.
  Proof.
    split; [apply (bool_decide_unpack _); vm_compute; exact I|]. split; [|vm_compute; done].
    intros v. unfold present. rewrite !elem_of_cons, elem_of_nil. lia.
  Qed.
  Lemma never_pf s bs :
    lenN vals = 16 -> chain s bs -> only_by present bs -> (forall b, b ∈ bs -> 5 < b_slot b) -> Fs s = 0.
  Proof.
    intros Hn Hch Hby H5. change 0 with (Fs gen).
    apply (stuck_pf gen [] s bs); [rewrite Hn; done|constructor|done| |].
    - intros t Ht Hj. by destruct (proj2 stuck_gen t Ht Hj).
    - cbn [app s_finalized genesis cp_slot]. intros b Hb _. rewrite N.sub_0_r. split; [by apply H5|].
      intros Hsq%square_mod_16. destruct (Hby b Hb) as [Hp _]. rewrite (chain_proposer _ _ _ Hch Hb), Hn in Hp.
      unfold present, missing in *. rewrite !elem_of_cons, elem_of_nil in Hp. rewrite !elem_of_cons, elem_of_nil in Hsq. lia.
  Qed.
  Lemma refuted_pf : lenN vals = 16 ->
    exists s bs, chain s bs /\ only_by present bs /\ s_slot s = 6 /\
      forall s' bs', chain s' (bs ++ bs') -> only_by present bs' -> Fs s' = 0.
  Proof.
    intros Hn. destruct (can_extend gen [] 6 []) as (p1 & p2 & E1 & E2 & E3); [constructor|lia|done|done|].
    pose proof (chain_has_facts _ _ _ _ _ _ _ (chain_genesis hash_state hash_header hash_body gt vals)) as Hcf.
    set (b0 := mkBlock 6 (6 mod lenN vals) (last_entry []).2 0 []).
    pose proof (header_step _ _ _ _ _ _ _ _ _ _ Hcf (E1 : process_slots gen (b_slot b0) = Ok p1) (E2 0 : process_block_header p1 b0 = Ok p2)) as Hhf.
    pose proof (header_state_inv _ _ _ _ _ _ _ _ _ Hcf Hhf) as [Hinv2 Hcan2].
    assert (state_inv triv p2) as Hsi2 by (split; [by eapply loop_inv_mono, Hinv2|done]).
    pose proof (no_attestations p2 Hsi2 (hf_limit _ _ _ _ _ _ _ _ _ Hhf)) as Hna.
    rewrite (hf_vals _ _ _ _ _ _ _ _ _ Hhf) in Hna. pose proof (E3 _ (Hna ltac:(rewrite Hn; done))) as Hch1. cbn [app] in Hch1.
    exists p2. eexists. split; [exact Hch1|]. assert (6 mod lenN vals = 6) as H6 by (by rewrite Hn).
    split; [|split].
    - intros b ->%elem_of_list_singleton. cbn [b_proposer b_atts]. rewrite H6. split.
      + unfold present. rewrite !elem_of_cons. lia.
      + intros a v Ha. by apply elem_of_nil in Ha.
    - apply (hf_slot _ _ _ _ _ _ _ _ _ Hhf).
    - intros s' bs' Hch' Hby. eapply never_pf; [done|exact Hch'| |].
      + intros b. rewrite elem_of_app. intros [->%elem_of_list_singleton|Hb]; [|by apply Hby]. cbn [b_proposer b_atts]. rewrite H6. split.
        * unfold present. rewrite !elem_of_cons. lia.
        * intros a v Ha. by apply elem_of_nil in Ha.
      + clear -Hch1 Hch'. revert s' Hch'. induction bs' as [|b bs' IH] using rev_ind; intros s' Hch' b'.
        * rewrite app_nil_r. by intros ->%elem_of_list_singleton.
        * rewrite app_assoc in Hch' |- *. apply chain_snoc_inv in Hch' as (s0 & H0 & Hst).
          rewrite elem_of_app, elem_of_list_singleton. intros [Hb| ->]; [by eapply IH|].
          apply state_transition_links in Hst as (Hlt & _).
          destruct (chain_history _ _ _ _ _ _ _ H0) as [Hh _].
          destruct (Hh 6 (block_root (mkBlock 6 (6 mod lenN vals) (last_entry []).2 (hash_state p2) []))) as [Hle _]; [|lia].
          unfold chain_entries. right. apply elem_of_list_fmap. eexists. split; [|apply elem_of_app; left; by apply elem_of_list_singleton]. done.
  Qed.
End Live.
