(** Property lemmas of the state transition (statements re-exported by PropsSTF). *)
From Verif Require Export STFChain.

(** ** Facts holding for arbitrary states *)
Lemma process_one_frame rts s m a s' m' :
  process_one rts (s, m) a = Ok (s', m') -> frame s s'.
Proof.
  unfold process_one. intros H. apply rbind_Ok in H as (ok & _ & H).
  destruct ok; cbn [negb] in H; [|by injection H as <- <-].
  destruct (_ =? 0); [done|]. destruct (has_oob_bit _ _); [done|].
  destruct (_ <=? _); [|by injection H as <- <-].
  apply rbind_Ok in H as (js & _ & H). injection H as H.
  unfold try_finalize in H. cbn [s_finalized with_jslots with_justified] in H.
  destruct (_ <=? _); [injection H as <- <-; by split|].
  destruct (any_justifiable _ _ _); injection H as <- <-; by split.
Qed.
Lemma process_all_frame rts atts s m s' m' :
  process_all rts (s, m) atts = Ok (s', m') -> frame s s'.
Proof.
  revert s m. induction atts as [|a atts IH]; intros s m; cbn [process_all].
  - by intros [= <- <-].
  - intros H. apply rbind_Ok in H as ([s1 m1] & H1 & H2).
    apply process_one_frame in H1. apply IH in H2. by etrans.
Qed.
Lemma process_attestations_frame s atts s' :
  process_attestations s atts = Ok s' -> frame s s'.
Proof.
  unfold process_attestations. destruct (_ <? _); [done|]. destruct (_ =? _); [done|].
  destruct (negb _); [done|]. destruct (existsb _ _); [done|].
  intros H. apply rbind_Ok in H as ([s1 m1] & H1 & H2). apply process_all_frame in H1.
  cbn [fst snd] in H2. unfold serialize_justifications in H2.
  destruct (_ <? _); [done|]. destruct (_ <? _); [done|]. injection H2 as <-.
  destruct H1. by split.
Qed.

Lemma two_thirds_iff n P vs :
  lenN vs = n ->
  (forall v, vs !! N.to_nat v = Some true <-> v < n /\ P v) ->
  two_thirds n P <-> 2 * n <= 3 * count_true vs.
Proof.
  intros Hlen HP. split.
  - intros (xs & Hnd & Hxs & Hc).
    assert (xs ⊆+ validator_indices vs) as Hsub.
    { apply NoDup_submseteq; [done|]. intros v Hv. apply validator_indices_spec.
      apply HP. by apply Hxs. }
    apply submseteq_length in Hsub. rewrite <- (validator_indices_length vs).
    unfold lenN in *. lia.
  - intros Hc. apply (two_thirds_of_votes n P vs); [done|done|].
    intros v Hv. by apply HP.
Qed.

Section Thms.
  Context (hash_state : State -> H256) (hash_header : Header -> H256)
          (hash_body : list AggAtt -> H256).
  Context (gt : N) (vals : list Validator).
  Notation chain := (chain hash_state hash_header hash_body gt vals).
  Notation in_block := (in_block hash_state hash_header hash_body gt vals).
  Notation genesis_root := (genesis_root hash_state hash_header hash_body gt vals).
  Notation entries := (chain_entries hash_state hash_header hash_body gt vals).
  Notation gen := (genesis hash_body gt vals).
  Notation process_slots := (process_slots hash_state).
  Notation process_block_header := (process_block_header hash_header hash_body).
  Notation state_transition := (state_transition hash_state hash_header hash_body).
  Notation block_root := (block_root hash_header hash_body).
  Notation chain_facts := (chain_facts hash_state hash_header hash_body gt vals).
  Notation header_facts := (header_facts hash_state hash_header hash_body gt vals).
  Notation last_entry := (last_entry hash_state hash_header hash_body gt vals).

  (** *** C02 *)
  Notation filled_header := (filled_header hash_state).
  Lemma state_transition_links s b s' :
    state_transition s b = Ok s' ->
    s_slot s < b_slot b /\ h_slot (s_header s) < b_slot b /\
    b_parent b = hash_header (filled_header s) /\
    b_state_root b = hash_state s' /\
    s_slot s' = b_slot b /\
    s_header s' = mkHeader (b_slot b) (b_proposer b) (b_parent b) ZERO (hash_body (b_atts b)) /\
    s_genesis_time s' = s_genesis_time s /\ s_validators s' = s_validators s /\
    (0 < lenN (s_validators s) /\ b_proposer b = b_slot b mod lenN (s_validators s)).
  Proof.
    intros H. unfold STF.state_transition in H.
    apply rbind_Ok in H as (s1 & H1 & H). apply rbind_Ok in H as (s3 & H2 & H).
    unfold process_block in H2. apply rbind_Ok in H2 as (s2 & Hbh & Hpa).
    destruct (N.eqb_spec (b_state_root b) (hash_state s3)) as [Hroot|]; [|done].
    injection H as <-.
    unfold STF.process_slots in H1.
    destruct (N.leb_spec (b_slot b) (s_slot s)); [done|]. injection H1 as <-.
    apply process_block_header_inv in Hbh. cbn in Hbh.
    assert (s_header (if h_state_root (s_header s) =? ZERO
      then with_header s (set_state_root (s_header s) (hash_state s)) else s) = filled_header s) as Hfh.
    { unfold filled_header. by destruct (_ =? _). }
    assert (s_validators (if h_state_root (s_header s) =? ZERO
      then with_header s (set_state_root (s_header s) (hash_state s)) else s) = s_validators s) as Hva.
    { by destruct (_ =? _). }
    assert (s_genesis_time (if h_state_root (s_header s) =? ZERO
      then with_header s (set_state_root (s_header s) (hash_state s)) else s) = s_genesis_time s) as Hgt.
    { by destruct (_ =? _). }
    assert (h_slot (filled_header s) = h_slot (s_header s)) as Hhs.
    { unfold filled_header. by destruct (_ =? _). }
    rewrite Hfh, Hva, Hhs in Hbh.
    destruct Hbh as (_ & Hslot & Hprop & Hpar & Hlim & js & Hjs & Heq).
    destruct (process_attestations_frame _ _ _ Hpa) as [F1 F2 F3 F4 F5].
    split; [done|]. split; [done|]. split; [done|]. split; [done|].
    rewrite F1, F2, F3, F5.
    rewrite Heq. cbn. split; [by destruct (h_slot (s_header s) =? 0)|]. split; [done|].
    split; [|split; [|done]].
    - destruct (h_slot (s_header s) =? 0); done.
    - destruct (h_slot (s_header s) =? 0); done.
  Qed.

  (** *** C03 *)
  Lemma chain_snoc_inv s bs b :
    chain s (bs ++ [b]) -> exists s0, chain s0 bs /\ state_transition s0 b = Ok s.
  Proof.
    inversion 1 as [Hnil|s0 bs0 b0 s' Hch Hst Heq Hl].
    - by destruct bs.
    - apply app_inj_tail in Hl as [-> ->]. eauto.
  Qed.

  Lemma chain_nil s : chain s [] -> s = gen.
  Proof.
    inversion 1 as [Hg|s0 bs0 b0 s' Hch Hst Heq Hl]; [done|]. by destruct bs0.
  Qed.

  Lemma chain_det s s' bs : chain s bs -> chain s' bs -> s = s'.
  Proof.
    revert s s'. induction bs as [|b bs IH] using rev_ind; intros s s' H1 H2.
    - apply chain_nil in H1, H2. congruence.
    - apply chain_snoc_inv in H1 as (s1 & H1 & H1'). apply chain_snoc_inv in H2 as (s2 & H2 & H2').
      rewrite (IH _ _ H1 H2) in H1'. congruence.
  Qed.

  Lemma entries_snoc bs b : entries (bs ++ [b]) = entries bs ++ [(b_slot b, block_root b)].
  Proof. unfold chain_entries. rewrite map_app. done. Qed.

  Lemma last_entry_in bs : last_entry bs ∈ entries bs.
  Proof.
    destruct bs as [|b bs _] using rev_ind; [left|].
    rewrite last_entry_snoc, entries_snoc. apply elem_of_app. right. by left.
  Qed.

  Lemma chain_history s bs :
    chain s bs ->
    (forall t r, (t, r) ∈ entries bs -> t <= s_slot s /\ (t < s_slot s -> root_at s t = Some r)) /\
    (forall t, t < s_slot s -> (forall r, (t, r) ∉ entries bs) -> root_at s t = Some ZERO).
  Proof.
    induction 1 as [|s bs b s' Hch [IH1 IH2] Hst].
    - split; [|cbn; lia]. intros t r. unfold chain_entries. cbn [map].
      rewrite elem_of_list_singleton. intros [= -> ->]. cbn. lia.
    - pose proof (chain_has_facts _ _ _ _ _ _ _ Hch) as Hcf.
      destruct (state_transition_inv _ _ _ _ _ _ _ _ _ Hcf Hst)
        as (s1 & s2 & H1 & H2 & H3 & Hhf & Hfr & HF & HJ & Hsi & Hroot).
      pose proof (hf_lt _ _ _ _ _ _ _ _ _ Hhf) as Hlt.
      assert (s_slot s' = b_slot b) as Hslot.
      { rewrite (fr_slot _ _ Hfr). by apply (hf_slot _ _ _ _ _ _ _ _ _ Hhf). }
      assert (s_hist s' = s_hist s ++ (last_entry bs).2 ::
        replicate (N.to_nat (b_slot b - s_slot s - 1)) ZERO) as Hh.
      { rewrite (fr_hist _ _ Hfr). rewrite (hf_hist _ _ _ _ _ _ _ _ _ Hhf).
        by rewrite (cf_slot _ _ _ _ _ _ _ Hcf). }
      assert (lenN (s_hist s) = s_slot s) as Hlen.
      { rewrite (cf_len _ _ _ _ _ _ _ Hcf). by rewrite (cf_slot _ _ _ _ _ _ _ Hcf). }
      unfold lenN in Hlen.
      assert (last_entry bs = (s_slot s, (last_entry bs).2)) as Hle.
      { rewrite (cf_slot _ _ _ _ _ _ _ Hcf). rewrite <- (cf_root _ _ _ _ _ _ _ Hcf). done. }
      rewrite Hslot. split.
      + intros t r. rewrite entries_snoc. rewrite elem_of_app, elem_of_list_singleton.
        intros [Hin|[= -> ->]]; [|lia].
        destruct (IH1 t r Hin) as [Hts Hr]. split; [lia|]. intros Htb.
        unfold root_at. rewrite Hh.
        destruct (decide (t = s_slot s)) as [->|Hne].
        * rewrite lookup_app_r by lia. replace (N.to_nat (s_slot s) - length (s_hist s))%nat with 0%nat by lia.
          cbn. assert (bs <> [] \/ bs = []) as [Hbs|Hbs] by (destruct bs; [by right|by left]).
          -- (* the entry at the current slot is the last one *)
             destruct bs as [|b0 bs0 _] using rev_ind; [done|].
             rewrite last_entry_snoc in Hle |- *. rewrite entries_snoc in Hin.
             apply elem_of_app in Hin as [Hin|Hin].
             ++ exfalso. apply chain_snoc_inv in Hch as (s00 & Hch0 & Hst0).
                pose proof (chain_has_facts _ _ _ _ _ _ _ Hch0) as Hcf0.
                destruct (state_transition_inv _ _ _ _ _ _ _ _ _ Hcf0 Hst0)
                  as (? & ? & _ & _ & _ & Hhf0 & Hfr0 & _).
                pose proof (hf_lt _ _ _ _ _ _ _ _ _ Hhf0) as Hlt0.
                pose proof (hf_slot _ _ _ _ _ _ _ _ _ Hhf0) as Hs0.
                pose proof (fr_slot _ _ Hfr0) as Hs1.
                clear IH1 IH2.
                assert (forall t r, (t, r) ∈ entries bs0 -> t <= s_slot s00) as Hmax.
                { clear -Hch0. induction Hch0 as [|s bs b s' Hch IH Hst].
                  - intros t r. unfold chain_entries. cbn [map].
                    rewrite elem_of_list_singleton. intros [= -> ->]. cbn. lia.
                  - intros t r. rewrite entries_snoc, elem_of_app, elem_of_list_singleton.
                    apply state_transition_links in Hst as (Hl & _ & _ & _ & -> & _).
                    intros [Hin|[= -> ->]]; [|lia]. apply IH in Hin. lia. }
                apply Hmax in Hin. lia.
             ++ apply elem_of_list_singleton in Hin. cbn. congruence.
          -- subst bs. unfold chain_entries in Hin. cbn [map] in Hin.
             apply elem_of_list_singleton in Hin. cbn. congruence.
        * rewrite lookup_app_l by lia. apply Hr. lia.
      + intros t Htb Hno. unfold root_at. rewrite Hh.
        assert (forall r, (t, r) ∉ entries bs) as Hno'.
        { intros r Hin. apply (Hno r). rewrite entries_snoc. apply elem_of_app. by left. }
        destruct (decide (t < s_slot s)) as [Hlts|Hges].
        * rewrite lookup_app_l by lia. by apply IH2.
        * rewrite lookup_app_r by lia.
          destruct (decide (t = s_slot s)) as [->|Hne].
          -- exfalso. apply (Hno' (last_entry bs).2). rewrite <- Hle. apply last_entry_in.
          -- replace (N.to_nat t - length (s_hist s))%nat
               with (S (N.to_nat (t - s_slot s - 1))) by lia.
             cbn. apply lookup_replicate_2. lia.
  Qed.

  Lemma chain_last_slot s bs :
    chain s bs -> s_slot s = (last_entry bs).1 /\ lenN (s_hist s) = s_slot s /\
      h_slot (s_header s) = s_slot s /\ lenN (s_hist s) <= HISTORICAL_ROOTS_LIMIT.
  Proof.
    intros Hch. pose proof (chain_has_facts _ _ _ _ _ _ _ Hch) as Hcf.
    rewrite <- (cf_root _ _ _ _ _ _ _ Hcf). cbn.
    rewrite (cf_slot _ _ _ _ _ _ _ Hcf), (cf_len _ _ _ _ _ _ _ Hcf).
    repeat split. rewrite <- (cf_len _ _ _ _ _ _ _ Hcf). apply (cf_limit _ _ _ _ _ _ _ Hcf).
  Qed.

  Lemma chain_append s bs b s' :
    chain s bs -> state_transition s b = Ok s' -> s_hist s `prefix_of` s_hist s'.
  Proof.
    intros Hch Hst. pose proof (chain_has_facts _ _ _ _ _ _ _ Hch) as Hcf.
    destruct (state_transition_inv _ _ _ _ _ _ _ _ _ Hcf Hst)
      as (s1 & s2 & H1 & H2 & H3 & Hhf & Hfr & _).
    rewrite (fr_hist _ _ Hfr). by eapply header_prefix.
  Qed.

  (** *** C04 *)
  Lemma chain_mono_step s bs b s' :
    chain s bs -> state_transition s b = Ok s' -> Js s <= Js s' /\ Fs s <= Fs s'.
  Proof.
    intros Hch Hst. pose proof (chain_has_facts _ _ _ _ _ _ _ Hch) as Hcf.
    destruct (state_transition_inv _ _ _ _ _ _ _ _ _ Hcf Hst)
      as (s1 & s2 & H1 & H2 & H3 & Hhf & Hfr & HF & HJ & _).
    rewrite <- (hf_F _ _ _ _ _ _ _ _ _ Hhf), <- (hf_J _ _ _ _ _ _ _ _ _ Hhf). done.
  Qed.
  Lemma chain_mono s bs s' bs' :
    chain s bs -> chain s' (bs ++ bs') -> Js s <= Js s' /\ Fs s <= Fs s'.
  Proof.
    revert s'. induction bs' as [|b bs' IH] using rev_ind; intros s' H1 H2.
    - rewrite app_nil_r in H2. rewrite (chain_det _ _ _ H1 H2). done.
    - rewrite app_assoc in H2. apply chain_snoc_inv in H2 as (s0 & H2 & Hst).
      destruct (IH _ H1 H2). destruct (chain_mono_step _ _ _ _ H2 Hst). lia.
  Qed.
  Lemma chain_inv s bs :
    chain s bs -> bs <> [] -> state_inv (included_vote s bs) s.
  Proof.
    intros Hch Hbs. pose proof (chain_has_facts _ _ _ _ _ _ _ Hch) as Hcf.
    destruct (cf_case _ _ _ _ _ _ _ Hcf) as [[? _]|(_ & _ & ?)]; done.
  Qed.
  Lemma chain_order s bs :
    chain s bs -> Fs s <= Js s /\ (Js s < s_slot s \/ (Js s = 0 /\ s_slot s = 0)).
  Proof.
    intros Hch. destruct (chain_last_slot _ _ Hch) as (_ & Hl & _).
    destruct (decide (bs = [])) as [->|Hne].
    - apply chain_nil in Hch as ->. cbn. lia.
    - destruct (chain_inv _ _ Hch Hne) as [Hinv _]. pose proof (li_fj _ _ _ Hinv).
      pose proof (li_jl _ _ _ Hinv). lia.
  Qed.

  (** *** C05 *)
  Lemma root_at_entry s bs t r :
    chain s bs -> root_at s t = Some r -> r <> ZERO \/ t = 0 -> (t, r) ∈ entries bs.
  Proof.
    intros Hch Hr Hnz. destruct (chain_history _ _ Hch) as [H1 H2].
    destruct (chain_last_slot _ _ Hch) as (_ & Hlen & _).
    assert (t < s_slot s) as Ht.
    { unfold root_at in Hr. apply lookup_lt_Some in Hr. unfold lenN in Hlen. lia. }
    assert (Hdec : (exists r', (t, r') ∈ entries bs) \/ (forall r', (t, r') ∉ entries bs)).
    { destruct (decide (t ∈ map fst (entries bs))) as [Hin|Hnin].
      - left. apply elem_of_list_fmap in Hin as ([t' r'] & -> & Hin). eauto.
      - right. intros r' Hin. apply Hnin. apply elem_of_list_fmap. exists (t, r'). done. }
    destruct Hdec as [[r' Hin]|Hno].
    - destruct (H1 _ _ Hin) as [_ Hr']. rewrite (Hr' Ht) in Hr. by injection Hr as ->.
    - exfalso. rewrite (H2 _ Ht Hno) in Hr. injection Hr as <-.
      destruct Hnz as [?| ->]; [done|]. apply (Hno genesis_root). left.
  Qed.

  Lemma chain_checkpoints s bs :
    chain s bs -> bs <> [] ->
    (Fs s, cp_root (s_finalized s)) ∈ entries bs /\
    (Js s, cp_root (s_justified s)) ∈ entries bs /\
    root_at s (Fs s) = Some (cp_root (s_finalized s)) /\
    root_at s (Js s) = Some (cp_root (s_justified s)) /\
    (genesis_root <> ZERO -> cp_root (s_finalized s) <> ZERO /\ cp_root (s_justified s) <> ZERO).
  Proof.
    intros Hch Hne. destruct (chain_inv _ _ Hch Hne) as [Hinv _].
    pose proof (li_F _ _ _ Hinv) as HF. pose proof (li_J _ _ _ Hinv) as HJ.
    pose proof (li_F0 _ _ _ Hinv) as HF0. pose proof (li_J0 _ _ _ Hinv) as HJ0.
    assert ((Fs s, cp_root (s_finalized s)) ∈ entries bs) as EF.
    { apply root_at_entry with s; [done|done|].
      destruct (decide (Fs s = 0)); [by right|left]. apply HF0. lia. }
    assert ((Js s, cp_root (s_justified s)) ∈ entries bs) as EJ.
    { apply root_at_entry with s; [done|done|].
      destruct (decide (Js s = 0)); [by right|left]. apply HJ0. lia. }
    repeat (split; [done|]). intros Hg.
    assert (root_at s 0 = Some genesis_root) as Hr0.
    { destruct (chain_history _ _ Hch) as [H1 _].
      destruct (H1 0 genesis_root) as [_ H]; [left|]. apply H.
      pose proof (li_jl _ _ _ Hinv). destruct (chain_last_slot _ _ Hch) as (_ & Hl & _). lia. }
    split.
    - destruct (decide (Fs s = 0)) as [Hz|]; [|apply HF0; lia]. rewrite Hz in HF. congruence.
    - destruct (decide (Js s = 0)) as [Hz|]; [|apply HJ0; lia]. rewrite Hz in HJ. congruence.
  Qed.

  (** *** C06 *)
  Lemma chain_supermajority s bs :
    chain s bs ->
    (forall t, Fs s < t -> slot_justified s t ->
       exists r, root_at s t = Some r /\ r <> ZERO /\
         two_thirds (lenN vals) (included_vote s bs r)) /\
    (0 < Js s -> two_thirds (lenN vals) (included_vote s bs (cp_root (s_justified s)))) /\
    (0 < Fs s -> two_thirds (lenN vals) (included_vote s bs (cp_root (s_finalized s)))).
  Proof.
    intros Hch. destruct (decide (bs = [])) as [->|Hne].
    - apply chain_nil in Hch as ->. cbn. split; [|lia].
      intros t Ht Htj. unfold slot_justified in Htj. rewrite status_gt in Htj by done.
      cbn in Htj. done.
    - destruct (chain_inv _ _ Hch Hne) as [Hinv _].
      pose proof (cf_vals _ _ _ _ _ _ _ (chain_has_facts _ _ _ _ _ _ _ Hch)) as Hv.
      destruct Hinv. rewrite <- Hv. done.
  Qed.

  (** With distinct block roots, the counted votes name exactly that checkpoint. *)
  Lemma included_vote_exact s bs r t v :
    chain s bs -> NoDup (map snd (entries bs)) -> root_at s t = Some r -> r <> ZERO ->
    included_vote s bs r v -> included_vote_for bs (mkCp r t) v.
  Proof.
    intros Hch Hnd Hr Hnz (b & a & Hb & Ha & Hv & Hroot & Hat).
    exists b, a. repeat (split; [done|]).
    assert ((t, r) ∈ entries bs) as E1 by (apply root_at_entry with s; eauto).
    assert ((cp_slot (ad_target (at_data a)), r) ∈ entries bs) as E2
      by (apply root_at_entry with s; eauto).
    assert (t = cp_slot (ad_target (at_data a))) as ->.
    { apply elem_of_list_lookup in E1 as [i Hi]. apply elem_of_list_lookup in E2 as [j Hj].
      assert (i = j) as ->.
      { eapply (NoDup_lookup (map snd (entries bs))); [done| |].
        - change (map snd) with (fmap (M:=list) (@snd N N)). rewrite list_lookup_fmap, Hi. done.
        - change (map snd) with (fmap (M:=list) (@snd N N)). rewrite list_lookup_fmap, Hj. done. }
      congruence. }
    destruct (ad_target (at_data a)). cbn in *. congruence.
  Qed.

  Lemma two_thirds_mono n (P Q : N -> Prop) :
    (forall v, P v -> Q v) -> two_thirds n P -> two_thirds n Q.
  Proof.
    intros H (vs & Hnd & Hvs & Hc). exists vs. split; [done|]. split; [|done].
    intros v Hv. destruct (Hvs v Hv). auto.
  Qed.

  Lemma chain_supermajority_exact s bs :
    chain s bs -> NoDup (map snd (entries bs)) ->
    (forall t, Fs s < t -> slot_justified s t ->
       exists r, root_at s t = Some r /\ r <> ZERO /\
         two_thirds (lenN vals) (included_vote_for bs (mkCp r t))) /\
    (0 < Js s -> two_thirds (lenN vals) (included_vote_for bs (s_justified s))) /\
    (0 < Fs s -> two_thirds (lenN vals) (included_vote_for bs (s_finalized s))).
  Proof.
    intros Hch Hnd. destruct (chain_supermajority _ _ Hch) as (H1 & H2 & H3).
    split; [|split].
    - intros t Ht Htj. destruct (H1 t Ht Htj) as (r & Hr & Hnz & H).
      exists r. split; [done|]. split; [done|]. eapply two_thirds_mono; [|done].
      intros v. by apply included_vote_exact.
    - intros HJ. assert (bs <> []) as Hne.
      { intros ->. apply chain_nil in Hch as ->. cbn in HJ. lia. }
      destruct (chain_inv _ _ Hch Hne) as [Hinv _].
      specialize (H2 HJ). eapply two_thirds_mono; [|done]. intros v Hv.
      pose proof (included_vote_exact s bs (cp_root (s_justified s)) (Js s) v) as Hex.
      destruct (s_justified s) eqn:E. cbn in *. apply Hex; [done|done| | |done].
      + pose proof (li_J _ _ _ Hinv). rewrite E in *. done.
      + pose proof (li_J0 _ _ _ Hinv) as Hz. rewrite E in *. by apply Hz.
    - intros HJ. assert (bs <> []) as Hne.
      { intros ->. apply chain_nil in Hch as ->. cbn in HJ. lia. }
      destruct (chain_inv _ _ Hch Hne) as [Hinv _].
      specialize (H3 HJ). eapply two_thirds_mono; [|done]. intros v Hv.
      pose proof (included_vote_exact s bs (cp_root (s_finalized s)) (Fs s) v) as Hex.
      destruct (s_finalized s) eqn:E. cbn in *. apply Hex; [done|done| | |done].
      + pose proof (li_F _ _ _ Hinv). rewrite E in *. done.
      + pose proof (li_F0 _ _ _ Hinv) as Hz. rewrite E in *. by apply Hz.
  Qed.

  (** *** C11 *)
  Lemma chain_bookkeeping s bs :
    chain s bs ->
    StronglySorted N.lt (s_jroots s) /\
    length (s_jvals s) = (length (s_jroots s) * length vals)%nat /\
    forall r, r ∈ s_jroots s -> r <> ZERO /\ exists t, Fs s < t /\ root_at s t = Some r.
  Proof.
    intros Hch. pose proof (cf_vals _ _ _ _ _ _ _ (chain_has_facts _ _ _ _ _ _ _ Hch)) as Hv.
    destruct (decide (bs = [])) as [->|Hne].
    - apply chain_nil in Hch as ->. cbn. split; [constructor|]. split; [done|].
      intros r Hr. inversion Hr.
    - destruct (chain_inv _ _ Hch Hne) as [Hinv Hcan].
      split; [apply (can_sorted _ Hcan)|]. split; [rewrite <- Hv; apply (can_len _ Hcan)|].
      intros r Hr. apply (canonical_tallies_keys s) in Hr as [vs Hvs]; [|done].
      destruct (li_m _ _ _ Hinv _ _ Hvs) as (_ & ? & ? & _). done.
  Qed.

  Lemma chain_canonical s bs : chain s bs -> canonical s.
  Proof.
    intros Hch. pose proof (cf_vals _ _ _ _ _ _ _ (chain_has_facts _ _ _ _ _ _ _ Hch)) as Hv.
    destruct (chain_bookkeeping _ _ Hch) as (H1 & H2 & _). split; [done|]. by rewrite Hv.
  Qed.

  Lemma canonical_same_tallies s s' :
    canonical s -> canonical s' ->
    length (s_validators s) = length (s_validators s') ->
    (forall r, r ∈ s_jroots s <-> r ∈ s_jroots s') ->
    (forall r v, tallied s r v <-> tallied s' r v) ->
    s_jroots s = s_jroots s' /\ s_jvals s = s_jvals s'.
  Proof.
    intros Hc Hc' Hn Hr Ht. apply canonical_ext; [done|done|done|].
    assert (forall s r v, canonical s -> tallies_of s !! r = Some v -> length v = length (s_validators s)) as Hlen.
    { intros s0 r v [Hs Hl] Hv.
      destruct (unpack_lookup (length (s_validators s0)) (s_jroots s0) (s_jvals s0) ∅ r) as [H1 H2];
        [by apply StronglySorted_lt_NoDup|done|].
      assert (r ∈ s_jroots s0) as Hin.
      { apply canonical_tallies_keys; [by split|eauto]. }
      apply elem_of_list_lookup in Hin as [i Hi]. unfold tallies_of in Hv.
      rewrite (H1 i Hi) in Hv. injection Hv as <-. unfold segment.
      rewrite take_length, drop_length. apply lookup_lt_Some in Hi. nia. }
    apply map_eq. intros r. apply option_eq. intros vs.
    assert (forall s s', canonical s -> canonical s' ->
      length (s_validators s) = length (s_validators s') ->
      (forall r, r ∈ s_jroots s <-> r ∈ s_jroots s') ->
      (forall r v, tallied s r v <-> tallied s' r v) ->
      tallies_of s !! r = Some vs -> tallies_of s' !! r = Some vs) as Hgo.
    { clear -Hlen. intros s s' Hc Hc' Hn Hr Ht Hvs.
      assert (is_Some (tallies_of s' !! r)) as [vs' Hvs'].
      { apply canonical_tallies_keys; [done|]. apply Hr. apply canonical_tallies_keys; [done|eauto]. }
      rewrite Hvs'. f_equal. apply list_eq. intros i.
      pose proof (Hlen _ _ _ Hc Hvs) as L1. pose proof (Hlen _ _ _ Hc' Hvs') as L2.
      specialize (Ht r (N.of_nat i)). rewrite (canonical_tallied s), (canonical_tallied s') in Ht by done.
      rewrite Hvs, Hvs' in Ht. rewrite Nat2N.id in Ht.
      destruct (vs !! i) as [x|] eqn:Ex, (vs' !! i) as [y|] eqn:Ey.
      - f_equal. destruct x, y; try done; exfalso.
        + destruct Ht as [Ht _]. destruct Ht as (w & [= <-] & Hw); [by eauto|congruence].
        + destruct Ht as [_ Ht]. destruct Ht as (w & [= <-] & Hw); [by eauto|congruence].
      - apply lookup_lt_Some in Ex. apply lookup_ge_None in Ey. lia.
      - apply lookup_lt_Some in Ey. apply lookup_ge_None in Ex. lia.
      - done. }
    split; apply Hgo; try done.
  Qed.

  (** *** C12 *)
  Lemma chain_no_panic s bs b :
    chain s bs -> lenN vals <= VALIDATOR_REGISTRY_LIMIT ->
    state_transition s b <> Panic.
  Proof.
    intros Hch Hn H. pose proof (chain_has_facts _ _ _ _ _ _ _ Hch) as Hcf.
    unfold STF.state_transition in H.
    apply rbind_Panic in H as [H|(s1 & H1 & H)].
    { unfold STF.process_slots in H. by destruct (_ <=? _). }
    apply rbind_Panic in H as [H|(s2 & H2 & H)]; [|by destruct (_ =? _)].
    unfold process_block in H. apply rbind_Panic in H as [H|(s3 & H3 & H)].
    - destruct (process_slots_inv _ _ _ _ (cf_sr _ _ _ _ _ _ _ Hcf) H1) as [Hlt ->].
      unfold STF.process_block_header in H. cbn in H.
      destruct (negb _); [done|]. destruct (_ <=? _); [done|].
      destruct (current_proposer _ _); [|done]. destruct (negb _); [done|].
      destruct (negb _); [done|].
      destruct (N.ltb_spec HISTORICAL_ROOTS_LIMIT
        (lenN (s_hist s) + 1 + (b_slot b - h_slot (s_header s) - 1))) as [|Hlim]; [done|].
      rewrite (cf_len _ _ _ _ _ _ _ Hcf) in Hlim.
      rewrite (cf_slot _ _ _ _ _ _ _ Hcf) in Hlt.
      assert (cp_slot (s_finalized (if h_slot (s_header s) =? 0
          then with_finalized
             (with_justified (with_slot (with_header s (set_state_root (s_header s) (hash_state s))) (b_slot b))
                {| cp_root := hash_header (set_state_root (s_header s) (hash_state s)); cp_slot := Js s |})
             {| cp_root := hash_header (set_state_root (s_header s) (hash_state s)); cp_slot := Fs s |}
          else with_slot (with_header s (set_state_root (s_header s) (hash_state s))) (b_slot b))) = Fs s) as Hfs.
      { by destruct (_ =? 0). }
      cbn in Hfs, H. rewrite Hfs in H.
      match type of H with rbind (extend_to_slot ?a ?b ?c) _ = _ =>
        destruct (extend_to_slot_ok a b c) as [js Hjs]; [lia|rewrite Hjs in H; done] end.
    - pose proof (header_step _ _ _ _ _ _ _ _ _ _ Hcf H1 H3) as Hhf.
      pose proof (header_state_inv _ _ _ _ _ _ _ _ _ Hcf Hhf) as Hsi.
      revert H. eapply process_attestations_no_panic; [done|by apply header_votes_included| |].
      + apply (hf_limit _ _ _ _ _ _ _ _ _ Hhf).
      + rewrite (hf_vals _ _ _ _ _ _ _ _ _ Hhf). done.
  Qed.
End Thms.
