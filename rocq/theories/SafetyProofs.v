(** Proofs about accountable safety. *)
From Verif Require Export Safety STFAtt STFThms.

Lemma bounded_length (l : list N) n : NoDup l -> (forall v, v ∈ l -> v < n) -> lenN l <= n.
Proof.
  intros Hnd Hb. unfold lenN.
  assert (l ⊆+ map N.of_nat (seq 0 (N.to_nat n))) as Hs.
  { apply NoDup_submseteq; [done|]. intros v Hv. apply elem_of_list_fmap.
    exists (N.to_nat v). split; [lia|]. apply elem_of_seq. apply Hb in Hv. lia. }
  apply submseteq_length in Hs. rewrite map_length, seq_length in Hs. lia.
Qed.

Lemma overlap n (P Q : N -> Prop) :
  two_thirds n P -> two_thirds n Q -> one_third n (fun v => P v /\ Q v).
Proof.
  intros (vs & Hnd & Hv & Hl) (ws & Hnd' & Hw & Hl').
  exists (filter (fun v => v ∈ ws) vs). split; [by apply NoDup_filter|]. split.
  - intros v. rewrite elem_of_list_filter. intros [H1 H2].
    destruct (Hv v H2), (Hw v H1). done.
  - assert (lenN (filter (fun v => v ∉ ws) vs ++ ws) <= n) as Hb.
    { apply bounded_length.
      - apply NoDup_app. split; [by apply NoDup_filter|]. split; [|done].
        intros v. rewrite elem_of_list_filter. tauto.
      - intros v. rewrite elem_of_app, elem_of_list_filter.
        intros [[_ H]|H]; [by apply Hv|by apply Hw]. }
    assert (lenN vs = lenN (filter (fun v => v ∈ ws) vs) + lenN (filter (fun v => v ∉ ws) vs)) as Hp.
    { unfold lenN. clear. induction vs as [|v vs IH]; [done|]. rewrite !filter_cons.
      destruct (decide (v ∈ ws)), (decide (v ∉ ws)); try tauto; cbn [length]; lia. }
    rewrite lenN_app in Hb. lia.
Qed.

Lemma one_third_mono n (P Q : N -> Prop) :
  (forall v, P v -> Q v) -> one_third n P -> one_third n Q.
Proof.
  intros H (vs & Hnd & Hvs & Hc). exists vs. split; [done|]. split; [|done].
  intros v Hv. destruct (Hvs v Hv). auto.
Qed.

Lemma cast_mono bs bs' v d : bs ⊆ bs' -> cast bs v d -> cast bs' v d.
Proof. intros Hs (b & a & Hb & H). exists b, a. split; [by apply Hs|done]. Qed.
Lemma slashable_mono bs bs' v : bs ⊆ bs' -> slashable bs v -> slashable bs' v.
Proof. intros Hs (d & d' & H1 & H2 & H). exists d, d'. eauto using cast_mono. Qed.

(** *** Prefixes of an attestation list *)
Lemma distinct_app_l (l k : list AggAtt) : distinct_data l <= distinct_data (l ++ k).
Proof.
  unfold distinct_data, lenN.
  assert (remove_dups (map at_data l) ⊆+ remove_dups (map at_data (l ++ k))) as Hs.
  { apply NoDup_submseteq; [apply NoDup_remove_dups|]. intros x.
    rewrite !elem_of_remove_dups, map_app, elem_of_app. by left. }
  apply submseteq_length in Hs. lia.
Qed.
Lemma process_distinct inc s l s' :
  state_inv inc s -> process_attestations s l = Ok s' -> distinct_data l <= MAX_ATTESTATIONS_DATA.
Proof.
  intros Hsi H. rewrite (process_attestations_unfold _ _ _ Hsi) in H.
  destruct (N.ltb_spec MAX_ATTESTATIONS_DATA (distinct_data l)); [done|lia].
Qed.
Lemma process_nil s :
  state_inv triv s -> lenN (s_hist s) <= HISTORICAL_ROOTS_LIMIT ->
  lenN (s_validators s) <= VALIDATOR_REGISTRY_LIMIT ->
  process_attestations s [] = Ok s.
Proof.
  intros Hsi Hh Hv. rewrite (process_attestations_unfold _ _ _ Hsi).
  change (distinct_data []) with 0. cbn [process_all rbind fst snd].
  destruct (N.ltb_spec MAX_ATTESTATIONS_DATA 0); [lia|]. destruct Hsi as [Hinv Hcan].
  destruct (serialize_no_panic triv s (tallies_of s)) as [s' Hs']; try done.
  rewrite Hs'. f_equal. by apply serialize_unpack.
Qed.
Lemma process_prefix s l k s' :
  state_inv triv s -> lenN (s_hist s) <= HISTORICAL_ROOTS_LIMIT ->
  lenN (s_validators s) <= VALIDATOR_REGISTRY_LIMIT ->
  process_attestations s (l ++ k) = Ok s' -> exists m, process_attestations s l = Ok m.
Proof.
  intros Hsi Hh Hv H. pose proof (process_distinct _ _ _ _ Hsi H) as Hd.
  pose proof (distinct_app_l l k) as Hd'.
  rewrite (process_attestations_unfold _ _ l Hsi). rewrite (process_attestations_unfold _ _ _ Hsi) in H.
  destruct (N.ltb_spec MAX_ATTESTATIONS_DATA (distinct_data (l ++ k))); [lia|].
  destruct (N.ltb_spec MAX_ATTESTATIONS_DATA (distinct_data l)); [lia|].
  apply rbind_Ok in H as (sm & H & _). rewrite process_all_app in H.
  apply rbind_Ok in H as ([s1 m1] & H & _). rewrite H. cbn [rbind fst snd].
  destruct Hsi as [Hinv Hcan].
  destruct (process_all_inv triv (Fs s) l s (tallies_of s) s1 m1) as (Hinv1 & _ & _ & Hfr & _); try done.
  apply (serialize_no_panic triv); [done|by rewrite (fr_hist _ _ Hfr)|by rewrite (fr_vals _ _ Hfr)].
Qed.

Section Safety.
  Context (hash_state : State -> H256) (hash_header : Header -> H256)
          (hash_body : list AggAtt -> H256).
  Context (gt : N) (vals : list Validator).
  Context (Hinj : forall h h', hash_header h = hash_header h' -> h = h').
  Context (Hreg : lenN vals <= VALIDATOR_REGISTRY_LIMIT).
  Notation chain := (chain hash_state hash_header hash_body gt vals).
  Notation in_block := (in_block hash_state hash_header hash_body gt vals).
  Notation entries := (chain_entries hash_state hash_header hash_body gt vals).
  Notation gen := (genesis hash_body gt vals).
  Notation process_slots := (process_slots hash_state).
  Notation process_block_header := (process_block_header hash_header hash_body).
  Notation state_transition := (state_transition hash_state hash_header hash_body).
  Notation block_root := (block_root hash_header hash_body).
  Notation header_facts := (header_facts hash_state hash_header hash_body gt vals).

  (** *** Distinct roots *)
  Lemma entries_below s bs t r : chain s bs -> (t, r) ∈ entries bs -> t <= s_slot s.
  Proof using. intros Hc Hin. by apply (chain_history _ _ _ _ _ _ _ Hc) in Hin as [? _]. Qed.

  Lemma entries_root_slot t t' r bs bs' :
    (t, r) ∈ entries bs -> (t', r) ∈ entries bs' -> t = t'.
  Proof using Hinj.
    assert (forall bs t r, (t, r) ∈ entries bs -> exists h, r = hash_header h /\ t = h_slot h) as H.
    { clear t t' r bs bs'. intros bs t r. unfold chain_entries. rewrite elem_of_cons.
      intros [[= -> ->]|Hin]; [by eexists|].
      apply elem_of_list_fmap in Hin as (b & [= -> ->] & _). eexists. split; [done|]. done. }
    intros H1 H2. apply H in H1 as (h & -> & ->). apply H in H2 as (h' & E & ->).
    apply Hinj in E as ->. done.
  Qed.

  Lemma entries_slots s bs : chain s bs -> NoDup (map fst (entries bs)).
  Proof using.
    clear Hinj Hreg. induction 1 as [|s bs b s' Hch IH Hst].
    - unfold chain_entries. cbn. apply NoDup_singleton.
    - rewrite entries_snoc, map_app. cbn [map fst]. apply NoDup_app. split; [done|].
      split; [|apply NoDup_singleton].
      intros t Ht. rewrite elem_of_list_singleton. intros ->.
      apply elem_of_list_fmap in Ht as ([t r] & Hb & Hin). cbn in Hb. subst t.
      apply (entries_below _ _ _ _ Hch) in Hin.
      apply state_transition_links in Hst as (Hl & _). lia.
  Qed.

  Lemma entries_distinct s bs : chain s bs -> NoDup (map snd (entries bs)).
  Proof using Hinj.
    intros Hch. pose proof (entries_slots _ _ Hch) as Hnd.
    assert (forall t t' r, (t, r) ∈ entries bs -> (t', r) ∈ entries bs -> t = t') as Hu
      by (intros; by eapply entries_root_slot).
    revert Hnd Hu. generalize (entries bs). clear. intros l.
    induction l as [|[t r] l IH]; cbn [map fst snd]; intros Hnd Hu; [constructor|].
    apply NoDup_cons in Hnd as [Hn Hnd]. apply NoDup_cons. split.
    - intros Hin. apply elem_of_list_fmap in Hin as ([t' r'] & -> & Hin). cbn in *.
      apply Hn. rewrite (Hu t t' r'); [|by left|by right].
      apply elem_of_list_fmap. by exists (t', r').
    - apply IH; [done|]. intros t1 t2 r1 H1 H2. apply (Hu t1 t2 r1); by right.
  Qed.

  (** Roots known inside a block are entries of the chain below it. *)
  Lemma in_block_root m bs b prev t r :
    in_block m bs b prev -> root_at m t = Some r -> r <> ZERO -> (t, r) ∈ entries bs.
  Proof using.
    clear Hinj Hreg. intros Hib Hr Hnz. pose proof Hib as (s0 & s1 & s2 & Hch & H1 & H2 & H3).
    pose proof (chain_has_facts _ _ _ _ _ _ _ Hch) as Hcf.
    pose proof (header_step _ _ _ _ _ _ _ _ _ _ Hcf H1 H2) as Hhf.
    pose proof (process_attestations_frame _ _ _ H3) as Hfr.
    unfold root_at in Hr. rewrite (fr_hist _ _ Hfr), (hf_hist _ _ _ _ _ _ _ _ _ Hhf) in Hr.
    apply lookup_app_Some in Hr as [Hr|[Hle Hr]].
    - eapply root_at_entry; [done|exact Hr|by left].
    - destruct (N.to_nat t - length (s_hist s0))%nat as [|k] eqn:Ek.
      + cbn in Hr. injection Hr as <-.
        pose proof (last_entry_in hash_state hash_header hash_body gt vals bs) as Hin.
        replace t with (last_entry hash_state hash_header hash_body gt vals bs).1.
        { by rewrite <- surjective_pairing. }
        rewrite <- (cf_root _ _ _ _ _ _ _ Hcf). cbn.
        rewrite <- (cf_len _ _ _ _ _ _ _ Hcf). unfold lenN. lia.
      + cbn in Hr. apply lookup_replicate in Hr as [? _]. done.
  Qed.

  Lemma in_block_root_slot m bs b prev t t' r :
    in_block m bs b prev -> root_at m t = Some r -> root_at m t' = Some r -> r <> ZERO -> t = t'.
  Proof using Hinj.
    intros Hib H1 H2 Hnz.
    eapply entries_root_slot; eapply in_block_root; eauto.
  Qed.

  (** *** Induction over the attestations of a chain, from a given prefix *)
  Section Induction.
    Context (bs0 : list Block).
    Context (P : State -> list Block -> Prop) (Q : State -> list Block -> Block -> Prop).
    Context (H_base : forall s, chain s bs0 -> P s bs0).
    Context (H_head : forall k s b s1 s2,
      chain s (bs0 ++ k) -> P s (bs0 ++ k) ->
      process_slots s (b_slot b) = Ok s1 -> process_block_header s1 b = Ok s2 ->
      Q s2 (bs0 ++ k) b).
    Context (H_att : forall k m b prev a m',
      in_block m (bs0 ++ k) b prev -> in_block m' (bs0 ++ k) b (prev ++ [a]) ->
      prev ⊆ b_atts b -> a ∈ b_atts b -> process_attestations m [a] = Ok m' ->
      Q m (bs0 ++ k) b -> Q m' (bs0 ++ k) b).
    Context (H_end : forall k s b s',
      chain s (bs0 ++ k) -> state_transition s b = Ok s' ->
      Q s' (bs0 ++ k) b -> P s' (bs0 ++ k ++ [b])).

    Lemma att_induction_block k b prev m :
      (forall s, chain s (bs0 ++ k) -> P s (bs0 ++ k)) ->
      in_block m (bs0 ++ k) b prev -> prev ⊆ b_atts b -> Q m (bs0 ++ k) b.
    Proof using H_head H_att Hreg.
      intros HP. revert m. induction prev as [|a prev IH] using rev_ind; intros m Hib Hsub;
        pose proof Hib as (s0 & s1 & s2 & Hch & H1 & H2 & H3);
        pose proof (chain_has_facts _ _ _ _ _ _ _ Hch) as Hcf;
        pose proof (header_step _ _ _ _ _ _ _ _ _ _ Hcf H1 H2) as Hhf;
        pose proof (header_state_inv _ _ _ _ _ _ _ _ _ Hcf Hhf) as [Hinv2 Hcan2];
        (assert (state_inv triv s2) as Hsi by (split; [by eapply loop_inv_mono, Hinv2|done]));
        pose proof (hf_limit _ _ _ _ _ _ _ _ _ Hhf) as Hlim;
        (assert (lenN (s_validators s2) <= VALIDATOR_REGISTRY_LIMIT) as Hv2
           by (by rewrite (hf_vals _ _ _ _ _ _ _ _ _ Hhf))).
      - rewrite process_nil in H3 by done. injection H3 as <-. eapply H_head; eauto.
      - pose proof (process_distinct _ _ _ _ Hsi H3) as Hd.
        destruct (process_prefix _ _ _ _ Hsi Hlim Hv2 H3) as [m0 E0].
        assert (in_block m0 (bs0 ++ k) b prev) as Hib0 by (exists s0, s1, s2; done).
        rewrite (in_block_app _ _ _ _ _ _ _ _ _ [a] _ _ _ Hch H1 H2 E0 Hd) in H3.
        assert (prev ⊆ b_atts b) as Hsub'.
        { intros x Hx. apply Hsub, elem_of_app. by left. }
        eapply (H_att k m0 b prev a m); try done.
        + apply Hsub, elem_of_app. right. by apply elem_of_list_singleton.
        + by apply IH.
    Qed.

    Lemma att_induction_chain k s : chain s (bs0 ++ k) -> P s (bs0 ++ k).
    Proof using H_base H_head H_att H_end Hreg.
      revert s. induction k as [|b k IH] using rev_ind; intros s Hch.
      - rewrite app_nil_r in *. by apply H_base.
      - rewrite app_assoc in Hch. apply chain_snoc_inv in Hch as (s0 & Hch & Hst).
        eapply H_end; [done..|].
        pose proof (chain_has_facts _ _ _ _ _ _ _ Hch) as Hcf.
        destruct (state_transition_inv _ _ _ _ _ _ _ _ _ Hcf Hst)
          as (s1 & s2 & H1 & H2 & H3 & _).
        eapply (att_induction_block k b (b_atts b)); [done| |done].
        exists s0, s1, s2. done.
    Qed.

    Lemma att_induction_in_block k b prev m :
      in_block m (bs0 ++ k) b prev -> prev ⊆ b_atts b -> Q m (bs0 ++ k) b.
    Proof using H_base H_head H_att H_end Hreg.
      intros Hib Hsub. eapply att_induction_block; [|done..]. apply att_induction_chain.
    Qed.
  End Induction.

  (** *** Justified slots stay justified *)
  Lemma header_justified s bs b s1 s2 t :
    chain s bs -> process_slots s (b_slot b) = Ok s1 -> process_block_header s1 b = Ok s2 ->
    (slot_justified s2 t <-> slot_justified s t) /\
    (forall r v, tallied s2 r v <-> tallied s r v) /\
    s_hist s `prefix_of` s_hist s2 /\ Fs s2 = Fs s.
  Proof using.
    clear Hinj Hreg. intros Hch H1 H2.
    pose proof (chain_has_facts _ _ _ _ _ _ _ Hch) as Hcf.
    pose proof (header_step _ _ _ _ _ _ _ _ _ _ Hcf H1 H2) as Hhf.
    destruct (hf_js _ _ _ _ _ _ _ _ _ Hhf) as (js & Hjs & Ejs).
    destruct (hf_votes _ _ _ _ _ _ _ _ _ Hhf) as [Er Ev].
    split_and!.
    - unfold slot_justified. rewrite (hf_F _ _ _ _ _ _ _ _ _ Hhf), Ejs.
      rewrite (extend_to_slot_spec _ _ _ _ Hjs t).
      destruct (status (s_jslots s) (Fs s) t) as [[]|]; [done..|].
      destruct (t <=? _); done.
    - intros r v. unfold tallied. rewrite Er, Ev, (hf_vals _ _ _ _ _ _ _ _ _ Hhf).
      by rewrite (cf_vals _ _ _ _ _ _ _ Hcf).
    - by eapply header_prefix.
    - apply (hf_F _ _ _ _ _ _ _ _ _ Hhf).
  Qed.

  (** One attestation: ignored, or counted with the effects of C07. *)
  Lemma att_step m bs b prev a m' :
    in_block m bs b prev -> process_attestations m [a] = Ok m' ->
    frame m m' /\
    (m' = m \/
     vote_counts m (at_data a) /\
     ((~ two_thirds (lenN vals) (voters_after m a) /\ att_effect_below m a m') \/
      (two_thirds (lenN vals) (voters_after m a) /\ att_effect_reached m a m'))).
  Proof using Hreg.
    intros Hib Hok.
    destruct (in_block_facts _ _ _ _ _ _ _ _ _ Hib) as (Hsi & Hlim & _ & Hvals & _).
    split; [by eapply process_attestations_frame|].
    rewrite <- Hvals in Hreg |- *.
    destruct (valid_cases m (at_data a)) as [[H _]|[[H Hno]|[_ H]]].
    2:{ left. rewrite (att_ignored m Hsi Hlim Hreg) in Hok;
          [|rewrite <- (valid_iff m Hsi Hlim Hreg); congruence|done]. congruence. }
    2:{ exfalso. rewrite (att_out_of_range m Hsi) in Hok by done. done. }
    right. apply (valid_iff m Hsi Hlim Hreg) in H as Hc. split; [done|].
    assert (exists v0, votes_in v0 a) as [v0 Hv0].
    { destruct (decide (count_true (at_bits a) = 0)) as [Hz|Hz].
      - exfalso. rewrite (att_no_voters m Hsi Hlim Hreg) in Hok; [done|done|].
        intros v. apply (proj1 (count_true_0 _) Hz).
      - rewrite <- validator_indices_length in Hz.
        destruct (validator_indices (at_bits a)) as [|v l] eqn:E; [done|].
        exists v. unfold votes_in. apply validator_indices_spec. rewrite E. left. }
    assert (forall v, votes_in v a -> v < lenN (s_validators m)) as Hb.
    { intros v Hv. destruct (decide (v < lenN (s_validators m))); [done|].
      exfalso. rewrite (att_oob m Hsi Hlim Hreg a v) in Hok; [done|done|done|lia]. }
    destruct (att_effect m Hsi Hlim Hreg a v0 Hc Hv0 Hb) as (s1 & H1 & _ & _ & H3 & H4).
    rewrite H1 in Hok. injection Hok as ->.
    destruct (marked_spec m Hsi Hlim Hreg a Hb) as [Hl Hm].
    destruct (decide (2 * lenN (s_validators m) <=
      3 * count_true (mark_votes (votes_for m (tallies_of m) (cp_root (ad_target (at_data a)))) (at_bits a))))
      as [Hd|Hd].
    - right. assert (two_thirds (lenN (s_validators m)) (voters_after m a)) as H23
        by (apply (two_thirds_iff _ _ _ (f_equal N.of_nat Hl) Hm); done). eauto.
    - left. assert (~ two_thirds (lenN (s_validators m)) (voters_after m a)) as H23.
      { intros H23. apply Hd. apply (two_thirds_iff _ _ _ (f_equal N.of_nat Hl) Hm). done. }
      eauto.
  Qed.

  Lemma att_justified m bs b prev a m' t :
    in_block m bs b prev -> process_attestations m [a] = Ok m' ->
    slot_justified m t -> slot_justified m' t.
  Proof using Hreg.
    intros Hib Hok Ht. destruct (att_step _ _ _ _ _ _ Hib Hok) as [_ [->|[Hc [[_ He]|[_ He]]]]]; [done| |].
    - unfold slot_justified. by rewrite (ab_win _ _ _ He), (ab_fin _ _ _ He).
    - destruct (decide (Fs m' < t)) as [Hlt|Hge].
      + apply (ar_status _ _ _ He t Hlt). by right.
      + unfold slot_justified, status. destruct (N.leb_spec t (Fs m')); [done|lia].
  Qed.

  (** *** Where the tallied votes come from *)
  Definition sourced (bs : list Block) (m : State) : Prop :=
    forall r v, tallied m r v -> exists d,
      cast bs v d /\ cp_root (ad_target d) = r /\ root_at m (cp_slot (ad_target d)) = Some r /\
      slot_justified m (cp_slot (ad_source d)).

  Lemma cast_att bs b a v : a ∈ b_atts b -> votes_in v a -> cast (bs ++ [b]) v (at_data a).
  Proof using.
    clear Hinj Hreg. intros Ha Hv. exists b, a. split; [|done].
    apply elem_of_app. right. by apply elem_of_list_singleton.
  Qed.

  Lemma sourced_att m bs b prev a m' :
    in_block m bs b prev -> a ∈ b_atts b -> process_attestations m [a] = Ok m' ->
    sourced (bs ++ [b]) m -> sourced (bs ++ [b]) m'.
  Proof using Hreg.
    intros Hib Ha Hok HI r v Ht.
    pose proof (fun t => att_justified _ _ _ _ _ _ t Hib Hok) as Hj.
    destruct (att_step _ _ _ _ _ _ Hib Hok) as [Hfr Hcase].
    assert (tallied m r v -> exists d,
      cast (bs ++ [b]) v d /\ cp_root (ad_target d) = r /\ root_at m' (cp_slot (ad_target d)) = Some r /\
      slot_justified m' (cp_slot (ad_source d))) as Hold.
    { intros H. destruct (HI r v H) as (d & H1 & H2 & H3 & H4). exists d. split_and!; try done.
      - unfold root_at. by rewrite (fr_hist _ _ Hfr).
      - by apply Hj. }
    destruct Hcase as [->|[Hc [[_ He]|[_ He]]]]; [by apply Hold| |].
    - apply (ab_tally _ _ _ He) in Ht. case_decide as Hr; [|by apply Hold].
      destruct Ht as [_ [Ht|Ht]]; [by rewrite <- Hr in Ht; apply Hold|].
      destruct Hc as (Hs & _ & _ & [_ Htgt] & _).
      exists (at_data a). split_and!; [by apply cast_att|done| |by apply Hj].
      rewrite Hr. unfold root_at. rewrite (fr_hist _ _ Hfr). exact Htgt.
    - apply (ar_tally _ _ _ He) in Ht as [Ht _]. by apply Hold.
  Qed.

  Lemma sourced_head s bs b s1 s2 :
    chain s bs -> process_slots s (b_slot b) = Ok s1 -> process_block_header s1 b = Ok s2 ->
    sourced bs s -> sourced (bs ++ [b]) s2.
  Proof using.
    clear Hinj Hreg. intros Hch H1 H2 HI r v Ht.
    destruct (header_justified _ _ _ _ _ 0 Hch H1 H2) as (_ & Htl & Hp & _).
    apply Htl in Ht. destruct (HI r v Ht) as (d & Hd & Hr & Hroot & Hs).
    exists d. split_and!; [|done| |].
    - eapply cast_mono; [|done]. intros x Hx. apply elem_of_app. by left.
    - unfold root_at in *. by eapply prefix_lookup.
    - by destruct (header_justified _ _ _ _ _ (cp_slot (ad_source d)) Hch H1 H2) as [-> _].
  Qed.

  Lemma sourced_genesis s : chain s [] -> sourced [] s.
  Proof using.
    clear Hinj Hreg. intros Hch. apply chain_nil in Hch as ->.
    intros r v (_ & i & Hi & _). cbn in Hi. done.
  Qed.

  Lemma sourced_chain s bs : chain s bs -> sourced bs s.
  Proof using Hreg.
    apply (att_induction_chain [] (fun s bs => sourced bs s) (fun m bs b => sourced (bs ++ [b]) m)).
    - exact sourced_genesis.
    - intros k s0 b s1 s2 Hch HP H1 H2. exact (sourced_head _ _ _ _ _ Hch H1 H2 HP).
    - intros k m b prev a m' H1 H2 H3 H4 H5 H6. exact (sourced_att _ _ _ _ _ _ H1 H4 H5 H6).
    - intros k s0 b s' H1 H2 H3. done.
  Qed.
  Lemma sourced_in_block m bs b prev :
    in_block m bs b prev -> prev ⊆ b_atts b -> sourced (bs ++ [b]) m.
  Proof using Hreg.
    apply (att_induction_in_block [] (fun s bs => sourced bs s) (fun m bs b => sourced (bs ++ [b]) m)).
    - exact sourced_genesis.
    - intros k s0 b0 s1 s2 Hch HP H1 H2. exact (sourced_head _ _ _ _ _ Hch H1 H2 HP).
    - intros k m0 b0 prev0 a m' H1 H2 H3 H4 H5 H6. exact (sourced_att _ _ _ _ _ _ H1 H4 H5 H6).
    - intros k s0 b0 s' H1 H2 H3. done.
  Qed.

  (** *** The first slot justified above a bound, without finalizing anything new *)
  Section Bound.
    Context (B F : N).

    Definition low_vote (bs : list Block) (m : State) (t v : N) : Prop :=
      exists d, cast bs v d /\ cp_slot (ad_target d) = t /\ cp_slot (ad_source d) <= B /\
        slot_justified m (cp_slot (ad_source d)).
    Definition witness (bs : list Block) (m : State) : Prop :=
      exists t, B < t /\ justifiable_distance (t - F) /\ two_thirds (lenN vals) (low_vote bs m t).
    Definition bound (bs : list Block) (m : State) : Prop :=
      sourced bs m /\ F <= Fs m /\
      (Fs m = F -> (forall t, slot_justified m t -> t <= B) \/ witness bs m).

    Lemma witness_mono bs bs' m m' :
      bs ⊆ bs' -> (forall t, slot_justified m t -> slot_justified m' t) ->
      witness bs m -> witness bs' m'.
    Proof using.
      clear Hinj Hreg. intros Hsub Hj (t & Ht & Hd & H). exists t. split_and!; [done..|].
      eapply two_thirds_mono; [|done]. intros v (d & H1 & H2 & H3 & H4).
      exists d. split_and!; [by eapply cast_mono|done|done|by apply Hj].
    Qed.

    Lemma bound_head s bs b s1 s2 :
      chain s bs -> process_slots s (b_slot b) = Ok s1 -> process_block_header s1 b = Ok s2 ->
      bound bs s -> bound (bs ++ [b]) s2.
    Proof using.
      clear Hinj Hreg. intros Hch H1 H2 (HI & HF & HB).
      pose proof (fun t => header_justified _ _ _ _ _ t Hch H1 H2) as Hj.
      destruct (Hj 0) as (_ & _ & _ & EF).
      split; [by eapply sourced_head|]. rewrite EF. split; [done|]. intros E.
      destruct (HB E) as [Hle|Hw].
      - left. intros t Ht. apply Hle. by apply Hj.
      - right. eapply witness_mono; [| |exact Hw].
        + intros x Hx. apply elem_of_app. by left.
        + intros t. apply Hj.
    Qed.

    Lemma bound_att m bs b prev a m' :
      in_block m bs b prev -> a ∈ b_atts b -> process_attestations m [a] = Ok m' ->
      bound (bs ++ [b]) m -> bound (bs ++ [b]) m'.
    Proof using Hreg Hinj.
      intros Hib Ha Hok (HI & HF & HB).
      pose proof (fun t => att_justified _ _ _ _ _ _ t Hib Hok) as Hj.
      assert (Fs m <= Fs m') as Hmono.
      { destruct (in_block_facts _ _ _ _ _ _ _ _ _ Hib) as (Hsi & _).
        by destruct (process_attestations_inv triv m [a] m' Hsi) as (_ & _ & ? & _). }
      split; [by eapply sourced_att|]. split; [lia|]. intros E.
      assert (Fs m = F) as E0 by lia.
      destruct (HB E0) as [Hle|Hw]; [|right; by eapply witness_mono].
      destruct (att_step _ _ _ _ _ _ Hib Hok) as [Hfr [->|[Hc [[_ He]|[H23 He]]]]]; [by left| |].
      { left. intros t Ht. apply Hle. unfold slot_justified in *.
        by rewrite (ab_win _ _ _ He), (ab_fin _ _ _ He) in Ht. }
      destruct Hc as (Hs & _ & _ & [Hnz Htgt] & _ & _ & Hd).
      set (T := cp_slot (ad_target (at_data a))) in *.
      destruct (decide (T <= B)) as [HT|HT].
      - left. intros t Ht. destruct (decide (Fs m' < t)) as [Hlt|Hge].
        + apply (ar_status _ _ _ He t Hlt) in Ht as [->|Ht]; [done|by apply Hle].
        + apply Hle. unfold slot_justified, status. destruct (N.leb_spec t (Fs m)); [done|lia].
      - right. exists T. split; [lia|]. split; [by rewrite <- E0|].
        eapply two_thirds_mono; [|exact H23]. intros v [Hv|Hv].
        + destruct (HI _ _ Hv) as (d & H1 & H2 & H3 & H4). exists d. split_and!; [done| |by apply Hle|by apply Hj].
          eapply in_block_root_slot; [exact Hib| | |exact Hnz]; [|exact Htgt]. done.
        + exists (at_data a). split_and!; [by apply cast_att|done|by apply Hle|by apply Hj].
    Qed.

    Lemma bound_in_block bs0 k b prev m :
      (forall s, chain s bs0 -> bound bs0 s) ->
      in_block m (bs0 ++ k) b prev -> prev ⊆ b_atts b -> bound ((bs0 ++ k) ++ [b]) m.
    Proof using Hreg Hinj.
      intros Hbase.
      apply (att_induction_in_block bs0 (fun s bs => bound bs s) (fun m bs b => bound (bs ++ [b]) m)).
      - exact Hbase.
      - intros k0 s0 b0 s1 s2 Hch HP H1 H2. exact (bound_head _ _ _ _ _ Hch H1 H2 HP).
      - intros k0 m0 b0 prev0 a m' H1 H2 H3 H4 H5 H6. exact (bound_att _ _ _ _ _ _ H1 H4 H5 H6).
      - intros k0 s0 b0 s' H1 H2 H3. by rewrite app_assoc.
    Qed.
  End Bound.

  Lemma justified_below s bs t : chain s bs -> slot_justified s t -> t <= s_slot s.
  Proof using.
    clear Hinj Hreg. intros Hch Ht. destruct (chain_last_slot _ _ _ _ _ _ _ Hch) as (_ & Hl & _).
    destruct (decide (bs = [])) as [->|Hne].
    - apply chain_nil in Hch as ->. unfold slot_justified, status in Ht. cbn in Ht |- *.
      destruct (N.leb_spec t 0); [lia|]. by rewrite lookup_nil in Ht.
    - destruct (chain_inv _ _ _ _ _ _ _ Hch Hne) as [Hinv _]. pose proof (li_win _ _ _ Hinv) as Hw.
      assert (is_Some (status (s_jslots s) (Fs s) t)) as Hsome by eauto.
      apply status_tracked in Hsome. lia.
  Qed.

  Lemma chain_app_inv s bs k : chain s (bs ++ k) -> exists s0, chain s0 bs.
  Proof using.
    clear Hinj Hreg. revert s. induction k as [|b k IH] using rev_ind; intros s H.
    - rewrite app_nil_r in H. eauto.
    - rewrite app_assoc in H. apply chain_snoc_inv in H as (s0 & H & _). by eapply IH.
  Qed.
  Lemma chain_later s0 bs0 s k b :
    chain s0 bs0 -> chain s (bs0 ++ k) -> b ∈ k -> s_slot s0 < b_slot b.
  Proof using.
    clear Hinj Hreg. intros H0. revert s.
    assert (forall s k, chain s (bs0 ++ k) -> s_slot s0 <= s_slot s /\ forall b, b ∈ k -> s_slot s0 < b_slot b) as H.
    { clear k. intros s k. revert s. induction k as [|b' k IH] using rev_ind; intros s H.
      - rewrite app_nil_r in H. rewrite (chain_det _ _ _ _ _ _ _ _ H0 H). split; [lia|].
        intros b' Hb. by apply elem_of_nil in Hb.
      - rewrite app_assoc in H. apply chain_snoc_inv in H as (s1 & H & Hst).
        destruct (IH _ H) as [IH1 IH2]. apply state_transition_links in Hst as (Hl & _ & _ & _ & E & _).
        split; [lia|]. intros b0. rewrite elem_of_app, elem_of_list_singleton. intros [Hb| ->]; [by apply IH2|lia]. }
    intros s Hs Hb. apply H in Hs as [_ Hs]. by apply Hs.
  Qed.

  (** Checkpoints justified inside a block have two thirds of the votes. *)
  Lemma in_block_supermajority m bs b prev c :
    in_block m bs b prev -> prev ⊆ b_atts b -> Fs m < cp_slot c ->
    slot_justified m (cp_slot c) -> on_chain m c ->
    two_thirds (lenN vals) (included_vote_for (bs ++ [b]) c).
  Proof using Hinj.
    clear Hreg. intros Hib Hsub Hlt Hj [Hnz Hr].
    destruct (in_block_inv _ _ _ _ _ _ _ _ _ Hib Hsub) as (s0 & s2 & Hcf & Hhf & Hfr & _ & _ & _ & _ & [Hinv _]).
    destruct (li_sup _ _ _ Hinv _ Hlt Hj) as (r & Hr' & _ & H).
    rewrite Hr in Hr'. injection Hr' as <-.
    rewrite (fr_vals _ _ Hfr), (hf_vals _ _ _ _ _ _ _ _ _ Hhf) in H.
    eapply two_thirds_mono; [|exact H]. intros v (b' & a & H1 & H2 & H3 & H4 & H5).
    exists b', a. split_and!; try done.
    assert (cp_slot (ad_target (at_data a)) = cp_slot c) as Es.
    { eapply in_block_root_slot; [exact Hib|exact H5|exact Hr|exact Hnz]. }
    destruct (ad_target (at_data a)), c; cbn in *; congruence.
  Qed.

  Lemma chain_supermajority_at s bs c :
    chain s bs -> justified_checkpoint s c -> two_thirds (lenN vals) (included_vote_for bs c).
  Proof using Hinj.
    clear Hreg. intros Hch (H0 & HF & [Hnz Hr] & Hj).
    destruct (chain_supermajority_exact _ _ _ _ _ _ _ Hch (entries_distinct _ _ Hch)) as (H1 & _ & H3).
    destruct (decide (Fs s < cp_slot c)) as [Hlt|Hge].
    - destruct (H1 _ Hlt Hj) as (r & Hr' & _ & H). rewrite Hr in Hr'. injection Hr' as <-.
      by destruct c.
    - assert (Fs s = cp_slot c) as E by lia.
      assert (s_finalized s = c) as <-; [|by apply H3].
      assert (bs <> []) as Hne.
      { intros ->. apply chain_nil in Hch as ->. cbn in E. lia. }
      destruct (chain_inv _ _ _ _ _ _ _ Hch Hne) as [Hinv _].
      pose proof (li_F _ _ _ Hinv) as HrF. rewrite E, Hr in HrF. injection HrF as HrF.
      destruct c, (s_finalized s). cbn in *. congruence.
  Qed.

  Lemma included_cast bs c v : included_vote_for bs c v -> exists d, cast bs v d /\ ad_target d = c.
  Proof using. clear Hinj Hreg. intros (b & a & H1 & H2 & H3 & H4). exists (at_data a). split; [by exists b, a|done]. Qed.

  Lemma same_slot_slashable bs bs' c c' v :
    cp_slot c = cp_slot c' -> c <> c' -> included_vote_for bs c v /\ included_vote_for bs' c' v ->
    slashable (bs ++ bs') v.
  Proof using.
    clear Hinj Hreg. intros Hs Hne [H1 H2].
    apply included_cast in H1 as (d & H1 & E1). apply included_cast in H2 as (d' & H2 & E2).
    exists d, d'. split_and!.
    - eapply cast_mono; [|done]. intros x Hx. apply elem_of_app. by left.
    - eapply cast_mono; [|done]. intros x Hx. apply elem_of_app. by right.
    - left. split; [congruence|]. left. congruence.
  Qed.

  Theorem overlap_pf s1 bs1 c1 s2 bs2 c2 :
    chain s1 bs1 -> chain s2 bs2 -> justified_checkpoint s1 c1 -> justified_checkpoint s2 c2 ->
    one_third (lenN vals) (fun v => included_vote_for bs1 c1 v /\ included_vote_for bs2 c2 v).
  Proof using Hinj.
    clear Hreg. intros H1 H2 J1 J2. apply overlap; by eapply chain_supermajority_at.
  Qed.

  Theorem same_slot_pf s1 bs1 c1 s2 bs2 c2 :
    chain s1 bs1 -> chain s2 bs2 -> justified_checkpoint s1 c1 -> justified_checkpoint s2 c2 ->
    cp_slot c1 = cp_slot c2 -> c1 <> c2 ->
    one_third (lenN vals) (slashable (bs1 ++ bs2)).
  Proof using Hinj.
    clear Hreg. intros H1 H2 J1 J2 Hs Hne. eapply one_third_mono; [|by eapply (overlap_pf s1 bs1 c1 s2 bs2 c2)].
    intros v. by apply same_slot_slashable.
  Qed.

  Theorem first_finalization_pf s0 bs0 bs1 m1 b1 prev1 a post1 bs2 m2 b2 prev2 post2 t :
    let c := ad_source (at_data a) in
    chain s0 bs0 ->
    in_block m1 (bs0 ++ bs1) b1 prev1 -> b_atts b1 = prev1 ++ a :: post1 ->
    cp_slot (s_finalized m1) = cp_slot (s_finalized s0) ->
    vote_counts m1 (at_data a) -> two_thirds (lenN vals) (voters_after m1 a) -> finalizes m1 a ->
    (forall v d, cast (bs0 ++ bs1 ++ [b1]) v d -> ad_target d = ad_target (at_data a) -> ad_source d = c) ->
    in_block m2 (bs0 ++ bs2) b2 prev2 -> b_atts b2 = prev2 ++ post2 ->
    cp_slot (s_finalized m2) = cp_slot (s_finalized s0) ->
    (cp_slot c, cp_root c) ∉ entries (bs0 ++ bs2) ->
    cp_slot c <= t -> slot_justified m2 t ->
    one_third (lenN vals) (slashable (bs0 ++ bs1 ++ [b1] ++ bs2 ++ [b2])).
  Proof using Hinj Hreg.
    intros c Hch0 Hib1 Hat1 HF1 Hc H23 Hfin Hsingle Hib2 Hat2 HF2 Hno Hle Hj.
    assert (prev1 ⊆ b_atts b1) as Hs1.
    { rewrite Hat1. intros x Hx. apply elem_of_app. by left. }
    assert (prev2 ⊆ b_atts b2) as Hs2.
    { rewrite Hat2. intros x Hx. apply elem_of_app. by left. }
    destruct Hc as (Hsj & _ & Hcs & [Hnz Htgt] & _ & Hlt & Hjd). fold c in Hsj, Hcs, Hlt.
    destruct Hfin as [Hgt Hbetween]. fold c in Hgt, Hbetween. rewrite HF1 in *.
    set (sl := (bs0 ++ bs1) ++ [b1]). set (sr := (bs0 ++ bs2) ++ [b2]).
    assert (sl ++ sr ⊆ bs0 ++ bs1 ++ [b1] ++ bs2 ++ [b2]) as Hall.
    { unfold sl, sr. intros x. rewrite !elem_of_app. tauto. }
    apply (one_third_mono _ (slashable (sl ++ sr))); [intros v; by apply slashable_mono|].
    (* the finalized block is after the common part *)
    assert (s_slot s0 <= cp_slot c) as Hafter.
    { destruct Hcs as [Hcnz Hcr]. pose proof (in_block_root _ _ _ _ _ _ Hib1 Hcr Hcnz) as Hin.
      destruct Hib1 as (s' & _ & _ & Hch' & _).
      assert ((cp_slot c, cp_root c) ∉ entries bs0) as Hn0.
      { intros H. apply Hno. unfold chain_entries in *. rewrite map_app. apply elem_of_cons in H as [H|H].
        - rewrite H. by left.
        - right. apply elem_of_app. by left. }
      unfold chain_entries in Hin, Hn0. rewrite map_app in Hin. rewrite elem_of_cons, elem_of_app in Hin.
      rewrite elem_of_cons in Hn0.
      destruct Hin as [Hin|[Hin|Hin]]; [tauto..|].
      apply elem_of_list_fmap in Hin as (b & [= Eb _] & Hb).
      pose proof (chain_later _ _ _ _ _ Hch0 Hch' Hb). lia. }
    (* voters on the first chain *)
    assert (two_thirds (lenN vals) (fun v => exists d, cast sl v d /\
              ad_target d = ad_target (at_data a) /\ ad_source d = c)) as HV1.
    { eapply two_thirds_mono; [|exact H23]. intros v [Hv|Hv].
      - destruct (sourced_in_block _ _ _ _ Hib1 Hs1 _ _ Hv) as (d & H1 & H2 & H3 & H4).
        assert (cp_slot (ad_target d) = cp_slot (ad_target (at_data a))) as Es.
        { eapply in_block_root_slot; [exact Hib1|exact H3|exact Htgt|exact Hnz]. }
        assert (ad_target d = ad_target (at_data a)) as Et.
        { destruct (ad_target d), (ad_target (at_data a)). cbn in *. congruence. }
        exists d. split_and!; [done|done|]. apply (Hsingle v); [by rewrite app_assoc|done].
      - exists (at_data a). split_and!; [|done..]. apply cast_att; [|done].
        rewrite Hat1. apply elem_of_app. right. by left. }
    destruct (decide (status (s_jslots m2) (Fs m2) (cp_slot c) = Some true)) as [Hj2|Hj2].
    - (* both chains justify that slot *)
      pose proof (in_block_supermajority _ _ _ _ c Hib1 Hs1 ltac:(lia) Hsj Hcs) as HQ1.
      destruct (in_block_inv _ _ _ _ _ _ _ _ _ Hib2 Hs2) as (s' & s2 & _ & _ & _ & _ & _ & _ & _ & [Hinv _]).
      assert (Fs m2 < cp_slot c) as Hlt2 by lia.
      destruct (li_sup _ _ _ Hinv _ Hlt2 Hj2) as (r & Hr & Hrz & _).
      pose proof (in_block_supermajority _ _ _ _ (mkCp r (cp_slot c)) Hib2 Hs2 Hlt2 Hj2 (conj Hrz Hr)) as HQ2.
      eapply one_third_mono; [|exact (overlap _ _ _ HQ1 HQ2)]. intros v.
      apply same_slot_slashable; [done|]. intros E. apply Hno.
      assert (r = cp_root c) as Er by (by rewrite E).
      rewrite <- Er. by eapply in_block_root.
    - (* the first slot justified after it on the second chain *)
      assert (cp_slot c < t) as Hct.
      { destruct (decide (t = cp_slot c)) as [->|]; [done|lia]. }
      destruct (bound_in_block (cp_slot c) (Fs s0) bs0 bs2 b2 prev2 m2) as (_ & _ & HB); [|done|done|].
      { intros s' Hs'. rewrite (chain_det _ _ _ _ _ _ _ _ Hs' Hch0).
        split; [by apply sourced_chain|]. split; [lia|]. intros _. left. intros t' Ht'.
        pose proof (justified_below _ _ _ Hch0 Ht'). lia. }
      destruct (HB HF2) as [Hlow|(t2 & Ht2 & Hd2 & HV2)].
      { exfalso. apply Hlow in Hj. lia. }
      eapply one_third_mono; [|exact (overlap _ _ _ HV1 HV2)].
      intros v [(d1 & C1 & T1 & S1) (d2 & C2 & T2 & S2 & J2)].
      assert (cp_slot (ad_source d2) < cp_slot c) as Hlt2.
      { destruct (decide (cp_slot (ad_source d2) = cp_slot c)) as [E|]; [|lia].
        rewrite E in J2. done. }
      exists d2, d1. split_and!.
      + eapply cast_mono; [|exact C2]. intros x Hx. apply elem_of_app. by right.
      + eapply cast_mono; [|exact C1]. intros x Hx. apply elem_of_app. by left.
      + rewrite <- T1 in Hbetween.
        destruct (N.lt_trichotomy t2 (cp_slot (ad_target d1))) as [H|[H|H]].
        * exfalso. by apply (Hbetween t2).
        * left. split; [congruence|]. right. intros E. rewrite E, S1 in Hlt2. lia.
        * right. split; [rewrite S1; done|]. rewrite T2. done.
  Qed.

  (** Symmetric form: both chains finalize. *)
  Theorem two_finalizations_pf s0 bs0 bs1 m1 b1 prev1 a1 post1 bs2 m2 b2 prev2 a2 post2 :
    let c1 := ad_source (at_data a1) in
    let c2 := ad_source (at_data a2) in
    chain s0 bs0 ->
    in_block m1 (bs0 ++ bs1) b1 prev1 -> b_atts b1 = prev1 ++ a1 :: post1 ->
    in_block m2 (bs0 ++ bs2) b2 prev2 -> b_atts b2 = prev2 ++ a2 :: post2 ->
    cp_slot (s_finalized m1) = cp_slot (s_finalized s0) ->
    cp_slot (s_finalized m2) = cp_slot (s_finalized s0) ->
    vote_counts m1 (at_data a1) -> two_thirds (lenN vals) (voters_after m1 a1) -> finalizes m1 a1 ->
    vote_counts m2 (at_data a2) -> two_thirds (lenN vals) (voters_after m2 a2) -> finalizes m2 a2 ->
    (forall v d, cast (bs0 ++ bs1 ++ [b1]) v d -> ad_target d = ad_target (at_data a1) -> ad_source d = c1) ->
    (forall v d, cast (bs0 ++ bs2 ++ [b2]) v d -> ad_target d = ad_target (at_data a2) -> ad_source d = c2) ->
    (cp_slot c1, cp_root c1) ∉ entries (bs0 ++ bs2) ->
    (cp_slot c2, cp_root c2) ∉ entries (bs0 ++ bs1) ->
    one_third (lenN vals) (slashable (bs0 ++ bs1 ++ [b1] ++ bs2 ++ [b2])).
  Proof using Hinj Hreg.
    intros c1 c2 H0 I1 A1 I2 A2 F1 F2 V1 T1 Z1 V2 T2 Z2 S1 S2 N1 N2.
    destruct (N.le_ge_cases (cp_slot c1) (cp_slot c2)) as [Hle|Hle].
    - eapply (first_finalization_pf s0 bs0 bs1 m1 b1 prev1 a1 post1 bs2 m2 b2 prev2 (a2 :: post2) (cp_slot c2));
        try done. apply V2.
    - apply (one_third_mono _ (slashable (bs0 ++ bs2 ++ [b2] ++ bs1 ++ [b1]))).
      { intros v. apply slashable_mono. intros x. rewrite !elem_of_app. tauto. }
      eapply (first_finalization_pf s0 bs0 bs2 m2 b2 prev2 a2 post2 bs1 m1 b1 prev1 (a1 :: post1) (cp_slot c1));
        try done. apply V1.
  Qed.
End Safety.
