(** The builder's projection of the post-state follows the state transition. *)
From Verif Require Export Packing BuilderNode SafetyProofs.
Local Open Scope N_scope.

Notation Payloads := (list (H256 * PayloadEntry)) (only parsing).

Global Instance tier_eq_dec : EqDecision Tier.
Proof. solve_decision. Defined.

Lemma justified_or_false_spec js fin t :
  justified_or_false js fin t = true <-> status js fin t = Some true.
Proof.
  unfold justified_or_false. rewrite is_slot_justified_status. destruct (status js fin t) as [[]|]; done.
Qed.

Lemma two_thirds_set n (P : N -> Prop) (X : gset N) :
  (forall v, v ∈ X <-> v < n /\ P v) -> two_thirds n P <-> 2 * n <= 3 * N.of_nat (size X).
Proof.
  intros HX. assert (N.of_nat (size X) = lenN (elements X)) as Hsz by done. split.
  - intros (vs & Hnd & Hvs & Hc). assert (vs ⊆+ elements X) as Hs.
    { apply NoDup_submseteq; [done|]. intros v Hv. apply elem_of_elements, HX, Hvs, Hv. }
    apply submseteq_length in Hs. unfold lenN in *. lia.
  - intros Hc. exists (elements X). split; [apply NoDup_elements|]. split; [|by rewrite <- Hsz].
    intros v Hv. by apply HX, elem_of_elements.
Qed.

Lemma counts_set k (P : N -> Prop) (X : gset N) :
  (forall v, v ∈ X <-> P v) -> counts k P -> k = N.of_nat (size X).
Proof.
  intros HX (vs & Hnd & Hvs & <-). unfold lenN, size, set_size. cbn. f_equal.
  apply Permutation_length, NoDup_Permutation; [done|apply NoDup_elements|].
  intros v. by rewrite elem_of_elements, HX, Hvs.
Qed.

Lemma running_votes_lookup n roots vals acc acc' r :
  running_votes n roots vals acc !! r = (fun vs => list_to_set (validator_indices vs)) <$> (unpack_tallies n roots vals acc' !! r)
  \/ (r ∉ roots /\ running_votes n roots vals acc !! r = acc !! r /\ unpack_tallies n roots vals acc' !! r = acc' !! r).
Proof.
  revert vals acc acc'. induction roots as [|x roots IH]; intros vals acc acc'; cbn [running_votes unpack_tallies].
  { right. split; [apply not_elem_of_nil|done]. }
  destruct (IH (drop n vals) (<[x := list_to_set (validator_indices (take n vals))]> acc) (<[x := take n vals]> acc')) as [H|(H1 & H2 & H3)].
  { by left. }
  destruct (decide (x = r)) as [->|Hne].
  - left. rewrite H2, H3, !lookup_insert. done.
  - right. rewrite H2, H3, !lookup_insert_ne by done. split; [|done]. apply not_elem_of_cons. done.
Qed.

Lemma running_tallied s r v :
  canonical s -> v ∈ default ∅ (build_running_votes s !! r) <-> tallied s r v.
Proof.
  intros Hc. rewrite canonical_tallied by done. unfold build_running_votes, tallies_of.
  destruct (running_votes_lookup (length (s_validators s)) (s_jroots s) (s_jvals s) ∅ ∅ r) as [-> | (_ & -> & ->)].
  - destruct (unpack_tallies _ _ _ _ !! r) as [vs|]; cbn.
    + rewrite elem_of_list_to_set, validator_indices_spec. split; [eauto|]. by intros (? & [= <-] & ?).
    + split; [by intros H%elem_of_empty|]. by intros (? & ? & _).
  - rewrite !lookup_empty. cbn. split; [by intros H%elem_of_empty|]. by intros (? & ? & _).
Qed.

(** The projection agrees with the state as far as later votes can notice. *)
Record tracks (pj : Projected) (m : State) : Prop := {
  tr_fin : pj_fin pj = Fs m;
  tr_just : forall t, status (pj_slots pj) (pj_fin pj) t = Some true <-> slot_justified m t;
  tr_votes : forall t r v, Fs m < t -> root_at m t = Some r -> r <> ZERO ->
    v ∈ (default ∅ (pj_votes pj !! r) : gset N) <-> tallied m r v }.

Section Proj.
  Context (hs : State -> H256) (hh : Header -> H256) (hb : list AggAtt -> H256) (gt : N) (vals : list Validator).
  Context (Hinj : forall h h', hh h = hh h' -> h = h') (Hreg : lenN vals <= VALIDATOR_REGISTRY_LIMIT).
  Notation in_block := (in_block hs hh hb gt vals).
  Notation chain := (chain hs hh hb gt vals).

  (** *** One candidate against the state *)
  Section One.
    Context (m : State) (bs : list Block) (b : Block) (pre : list AggAtt) (Hib : in_block m bs b pre).
    Context (pj : Projected) (Htr : tracks pj m).

    Lemma m_facts : state_inv triv m /\ lenN (s_hist m) <= HISTORICAL_ROOTS_LIMIT /\ s_validators m = vals.
    Proof. destruct (in_block_facts _ _ _ _ _ _ _ _ _ Hib) as (H1 & H2 & _ & H3 & _). done. Qed.

    Lemma target_unjust d :
      slot_tracked_unjustified m (cp_slot (ad_target d)) <->
      cp_slot (ad_target d) < lenN (s_hist m) /\ ~ slot_justified m (cp_slot (ad_target d)).
    Proof.
      destruct m_facts as ([Hinv _] & _). pose proof (li_win _ _ _ Hinv) as Hw.
      unfold slot_tracked_unjustified, slot_justified.
      destruct (decide (cp_slot (ad_target d) < lenN (s_hist m))) as [Hlt|Hge].
      - assert (is_Some (status (s_jslots m) (Fs m) (cp_slot (ad_target d)))) as [x Hx] by (apply status_tracked; lia).
        rewrite Hx. destruct x; naive_solver.
      - split; [|tauto]. intros H. exfalso. apply Hge.
        assert (is_Some (status (s_jslots m) (Fs m) (cp_slot (ad_target d)))) as Hs by (rewrite H; eauto).
        apply status_tracked in Hs. lia.
    Qed.

    (** The filters, for anything but a genesis self-vote: exactly the votes that count. *)
    Lemma filters_count d known :
      is_genesis_self_vote d = false ->
      passes_filters pj d known (s_hist m) = true <-> cp_root (ad_head d) ∈ known /\ vote_counts m d.
    Proof.
      intros Hg. destruct m_facts as (Hsi & Hlim & Hv).
      rewrite <- (valid_iff m Hsi Hlim ltac:(by rewrite Hv)), valid_vote_true, target_unjust.
      unfold passes_filters. rewrite Hg. cbn [orb]. rewrite !andb_true_iff, !negb_true_iff, bool_decide_eq_true.
      rewrite <- !not_true_iff_false, N.leb_le, !justified_or_false_spec, !(tr_just _ _ Htr), (tr_fin _ _ Htr).
      split.
      - intros (((((H1 & H2) & H3) & H4) & H5) & H6). split_and!; try done; [|lia].
        apply matches_chain_true in H3 as (_ & _ & H3 & _). apply lookup_lt_Some in H3. unfold lenN. lia.
      - intros (H1 & H2 & (H3 & H4) & H5 & H6 & H7). split_and!; try done. lia.
    Qed.

    Context (a : AggAtt) (Hvc : vote_counts m (at_data a)).
    Context (X : gset N) (HX : forall v, v ∈ X <-> votes_in v a) (Hrange : forall v, votes_in v a -> v < lenN vals).
    Notation d := (at_data a).
    Notation prior := (default ∅ (pj_votes pj !! cp_root (ad_target d))).

    Lemma target_above : Fs m < cp_slot (ad_target d).
    Proof.
      destruct Hvc as (_ & Hun & _). destruct (decide (Fs m < cp_slot (ad_target d))); [done|].
      unfold slot_tracked_unjustified in Hun. rewrite status_le in Hun by lia. done.
    Qed.
    Lemma prior_tallied v : v ∈ prior <-> tallied m (cp_root (ad_target d)) v.
    Proof.
      destruct Hvc as (_ & _ & _ & [Hnz Hr] & _). eapply (tr_votes _ _ Htr); [apply target_above|done|done].
    Qed.
    Lemma new_spec v : v ∈ X ∖ prior <-> new_voter m a v.
    Proof. rewrite elem_of_difference, HX, prior_tallied. done. Qed.

    Lemma crosses_spec :
      2 * lenN vals <= 3 * N.of_nat (size prior + size (X ∖ prior)) <-> reaches_quorum m a.
    Proof.
      destruct m_facts as (_ & _ & Hv). unfold reaches_quorum. rewrite Hv.
      rewrite (two_thirds_set (lenN vals) (voters_after m a) (prior ∪ X)).
      - rewrite <- size_union by set_solver. assert (prior ∪ X ∖ prior = prior ∪ X) as ->; [|done].
        apply set_eq. intros v. rewrite !elem_of_union, elem_of_difference. destruct (decide (v ∈ prior)); tauto.
      - intros v. rewrite elem_of_union, prior_tallied, HX. unfold voters_after. split; [|tauto].
        intros [H|H]; [|auto]. split; [|by left]. destruct H as [H _]. by rewrite Hv in H.
    Qed.

    Lemma finalizes_spec :
      (pj_fin pj <? cp_slot (ad_source d)) &&
      negb (any_justifiable (N.to_nat (cp_slot (ad_target d) - (cp_slot (ad_source d) + 1))) (cp_slot (ad_source d) + 1) (pj_fin pj)) = true
      <-> finalizes m a.
    Proof.
      rewrite (tr_fin _ _ Htr), andb_true_iff, negb_true_iff, <- not_true_iff_false, N.ltb_lt, any_justifiable_spec.
      destruct m_facts as (Hsi & Hlim & _). destruct Hvc as (_ & Hun & _ & _ & _ & Hlt & _).
      apply target_unjust in Hun as [Hun _]. unfold HISTORICAL_ROOTS_LIMIT in Hlim.
      unfold finalizes. split.
      - intros [H1 H2]. split; [done|]. intros t Ht Hj. apply H2. exists t. split; [lia|].
        apply justifiable_exact; [lia|]. split; [lia|done].
      - intros [H1 H2]. split; [done|]. intros (t & Ht & Hj). apply (H2 t ltac:(lia)).
        apply justifiable_exact in Hj; [tauto|lia].
    Qed.

    (** The score is the effect. *)
    Definition tier_of : Tier -> Prop := fun t =>
      match t with
      | TFinalize => reaches_quorum m a /\ finalizes m a
      | TJustify => reaches_quorum m a /\ ~ finalizes m a
      | TBuild => ~ reaches_quorum m a
      end.
    Lemma score_spec :
      (exists v, new_voter m a v) ->
      exists t, tier_of t /\
        score_entry pj d X (lenN vals) =
          Some (mkScore t (N.of_nat (size (X ∖ prior))) (cp_slot (ad_target d)) (ad_slot d), X ∖ prior).
    Proof.
      intros [v Hv]. unfold score_entry. rewrite bool_decide_false.
      2:{ intros He. apply new_spec in Hv. rewrite He in Hv. by apply elem_of_empty in Hv. }
      assert (is_genesis_self_vote d = false) as ->.
      { destruct Hvc as (_ & _ & _ & _ & _ & Hlt & _). unfold is_genesis_self_vote.
        destruct (N.eqb_spec (cp_slot (ad_target d)) 0); [lia|]. by rewrite andb_false_r. }
      cbn [orb]. rewrite <- andb_assoc.
      destruct (N.leb_spec (2 * lenN vals) (3 * N.of_nat (size prior + size (X ∖ prior)))) as [Hc|Hc]; cbn [andb negb].
      - apply crosses_spec in Hc. match goal with |- context [if ?c then TFinalize else _] => destruct c eqn:Hf end.
        + apply finalizes_spec in Hf. exists TFinalize. done.
        + exists TJustify. split; [|done]. split; [done|]. rewrite <- finalizes_spec. congruence.
      - exists TBuild. split; [|done]. intros H. apply crosses_spec in H. lia.
    Qed.

    (** *** Advancing *)
    Lemma advance_tracks t m' pj' :
      process_attestations m [a] = Ok m' -> (exists v, votes_in v a) -> tier_of t ->
      advance pj t d (X ∖ prior) = Ok pj' -> tracks pj' m'.
    Proof.
      intros Hok [v0 Hv0] Ht Ha. pose proof target_above as Hab.
      destruct m_facts as (Hsi & Hlim & Hv).
      destruct (att_effect m Hsi Hlim ltac:(by rewrite Hv) a v0 Hvc Hv0 ltac:(by rewrite Hv)) as (s1 & H1 & Hfr & _ & Hbelow & Hreached).
      rewrite Hok in H1. injection H1 as <-. fold (reaches_quorum m a) in Hbelow, Hreached.
      assert (forall u, root_at m' u = root_at m u) as Hroot by (intros u; unfold root_at; by rewrite (fr_hist _ _ Hfr)).
      set (r0 := cp_root (ad_target d)) in *.
      assert (forall (u : N) (r : H256) (v : N), Fs m <= Fs m' -> Fs m' < u -> root_at m' u = Some r -> r <> ZERO ->
        v ∈ (default ∅ (pj_votes pj !! r) : gset N) <-> tallied m r v) as Hold.
      { intros u r v Hle Hu Hr Hnz. rewrite Hroot in Hr. eapply (tr_votes _ _ Htr); [|done|done]. lia. }
      destruct (decide (t = TBuild)) as [->|Hnt].
      - specialize (Hbelow Ht). unfold advance in Ha. injection Ha as <-.
        pose proof (ab_fin _ _ _ Hbelow) as HF.
        split; cbn [pj_fin pj_slots pj_votes].
        + by rewrite HF, (tr_fin _ _ Htr).
        + intros u. unfold slot_justified. rewrite HF, (ab_win _ _ _ Hbelow). apply (tr_just _ _ Htr).
        + intros u r v Hu Hr Hnz. rewrite (ab_tally _ _ _ Hbelow). fold r0.
          destruct (decide (r = r0)) as [->|Hne].
          * rewrite lookup_insert. cbn [from_option id]. rewrite elem_of_union, elem_of_difference, HX.
            rewrite Hv. unfold voters_after. pose proof (prior_tallied v) as Hpt. fold r0 in Hpt |- *. rewrite <- Hpt.
            assert (v ∈ (default ∅ (pj_votes pj !! r0) : gset N) -> v < lenN vals) as Hpv.
            { intros Hp%Hpt. destruct Hp as [Hp _]. by rewrite Hv in Hp. }
            specialize (Hrange v). destruct (decide (v ∈ (default ∅ (pj_votes pj !! r0) : gset N))); tauto.
          * rewrite lookup_insert_ne by done. eapply Hold; [rewrite HF; lia|done|done|done].
      - assert (reaches_quorum m a) as Hrq by (destruct t; [apply Ht|apply Ht|done]).
        specialize (Hreached Hrq).
        unfold advance in Ha. fold r0 in Ha.
        assert (exists js1 js2, extend_to_slot (pj_slots pj) (pj_fin pj) (cp_slot (ad_target d)) = Ok js1 /\
          set_justified js1 (pj_fin pj) (cp_slot (ad_target d)) = Ok js2 /\
          pj' = (if decide (t = TFinalize)
                 then mkProj (shift_window js2 (cp_slot (ad_source d) - pj_fin pj)) (cp_slot (ad_source d))
                        (delete r0 (<[r0 := default ∅ (pj_votes pj !! r0) ∪ X ∖ default ∅ (pj_votes pj !! r0)]> (pj_votes pj)))
                 else mkProj js2 (pj_fin pj)
                        (delete r0 (<[r0 := default ∅ (pj_votes pj !! r0) ∪ X ∖ default ∅ (pj_votes pj !! r0)]> (pj_votes pj)))))
          as (js1 & js2 & Hj1 & Hj2 & ->).
        { destruct t; [| |done]; apply rbind_Ok in Ha as (js1 & Hj1 & Ha); apply rbind_Ok in Ha as (js2 & Hj2 & Ha);
            injection Ha as <-; exists js1, js2; split_and!; done. }
        assert (forall u, status js2 (pj_fin pj) u = Some true <->
          u = cp_slot (ad_target d) \/ status (pj_slots pj) (pj_fin pj) u = Some true) as Hst.
        { intros u. rewrite (set_justified_spec _ _ _ _ Hj2 u), (extend_to_slot_spec _ _ _ _ Hj1 u).
          destruct (N.eqb_spec u (cp_slot (ad_target d))) as [->|Hne]; [tauto|].
          destruct (status (pj_slots pj) (pj_fin pj) u) as [x|]; [naive_solver|].
          destruct (u <=? _); naive_solver. }
        assert (Fs m <= Fs m' -> forall (u : N) (r : H256) (v : N), Fs m' < u -> root_at m' u = Some r -> r <> ZERO ->
          v ∈ (default ∅ (delete r0 (<[r0 := default ∅ (pj_votes pj !! r0) ∪ X ∖ default ∅ (pj_votes pj !! r0)]> (pj_votes pj)) !! r) : gset N)
            <-> tallied m' r v) as Hvotes.
        { intros Hle u r v Hu Hr Hnz. rewrite (ar_tally _ _ _ Hreached). fold r0.
          destruct (decide (r = r0)) as [->|Hne].
          - rewrite lookup_delete. cbn. split; [by intros ?%elem_of_empty|tauto].
          - rewrite lookup_delete_ne, lookup_insert_ne by done. rewrite (Hold u r v Hle Hu Hr Hnz).
            rewrite Hroot in Hr. split; [|tauto]. intros H. split_and!; try done. exists u. done. }
        destruct (decide (t = TFinalize)) as [->|Hnf].
        + destruct Ht as [_ Hfin]. pose proof (ar_fin _ _ _ Hreached Hfin) as HF.
          assert (Fs m' = cp_slot (ad_source d)) as HFs by (by rewrite HF).
          assert (Fs m <= Fs m') as Hle by (destruct Hfin as [? _]; lia).
          split; cbn [pj_fin pj_slots pj_votes].
          * done.
          * intros u. destruct (decide (u <= cp_slot (ad_source d))) as [Hu|Hu].
            { rewrite status_le by done. unfold slot_justified. rewrite HF, status_le by done. done. }
            rewrite shift_window_spec; [|rewrite (tr_fin _ _ Htr); lia|lia].
            rewrite (ar_status _ _ _ Hreached) by (rewrite HFs; lia). rewrite Hst, (tr_just _ _ Htr). done.
          * by apply Hvotes.
        + assert (t = TJustify) as -> by (by destruct t). destruct Ht as [_ Hfin].
          pose proof (ar_nofin _ _ _ Hreached Hfin) as HF.
          split; cbn [pj_fin pj_slots pj_votes].
          * by rewrite HF, (tr_fin _ _ Htr).
          * intros u. destruct (decide (u <= Fs m)) as [Hu|Hu].
            { rewrite (tr_fin _ _ Htr), status_le by done. unfold slot_justified. rewrite HF, status_le by done. done. }
            rewrite (ar_status _ _ _ Hreached) by (rewrite HF; lia). rewrite Hst, (tr_just _ _ Htr). done.
          * apply Hvotes. rewrite HF. lia.
    Qed.
  End One.

  (** A genesis self-vote changes neither the state nor what the projection says. *)
  Lemma self_tracks m bs b pre pj a m' new pj' :
    in_block m bs b pre -> tracks pj m -> is_genesis_self_vote (at_data a) = true ->
    attestation_data_matches_chain (s_hist m) (at_data a) = true ->
    process_attestations m [a] = Ok m' -> advance pj TBuild (at_data a) new = Ok pj' ->
    tracks pj' m'.
  Proof.
    intros Hib Htr Hg Hm Hok Ha.
    unfold is_genesis_self_vote in Hg. apply andb_true_iff in Hg as [Hs%N.eqb_eq Ht%N.eqb_eq].
    assert (m' = m) as ->.
    { destruct (att_step hs hh hb gt vals Hreg _ _ _ _ _ _ Hib Hok) as [_ [->|[Hc _]]]; [done|].
      exfalso. destruct Hc as (_ & _ & _ & _ & _ & Hlt & _). lia. }
    unfold advance in Ha. injection Ha as <-. split; cbn [pj_fin pj_slots pj_votes]; [apply Htr..|].
    intros u r v Hu Hr Hnz. rewrite lookup_insert_ne; [by eapply (tr_votes _ _ Htr)|].
    intros <-. apply matches_chain_true in Hm as (_ & _ & Hm & _).
    pose proof (in_block_root_slot hs hh hb gt vals Hinj _ _ _ _ _ _ _ Hib Hr Hm Hnz). lia.
  Qed.

  (** *** The whole selection *)
  Section Run.
    Context (iter : AttestationData -> nat -> list nat -> list nat) (Hiter : forall d, an_order (iter d)).
    Context (E : Env) (pool : Payloads) (Hk : keyed E pool).
    Context (Hrange : forall d p v, pool_holds pool d p -> takes_part v p -> v < lenN vals).
    Context (known : list H256).
    Context (s0 s1 s2 : State) (bs : list Block) (b : Block).
    Context (Hch : chain s0 bs) (Hp1 : process_slots hs s0 (b_slot b) = Ok s1) (Hp2 : process_block_header hh hb s1 b = Ok s2).

    Lemma full_coverage r e a v :
      (r, e) ∈ pool -> at_data a = pe_data e -> full_vote pool a -> v ∈ coverage e <-> votes_in v a.
    Proof.
      intros Hin Hd Hf. rewrite coverage_spec, (Hf v). rewrite Hd. split.
      - intros (p & Hp & Hv). exists p. split; [|done]. exists r, e. done.
      - intros (p & (r' & e' & Hin' & Hd' & Hp) & Hv). exists p. split; [|done].
        assert (e' = e) as ->; [|done]. by eapply keyed_unique.
    Qed.
    Lemma full_range a v : full_vote pool a -> votes_in v a -> v < lenN vals.
    Proof. intros Hf Hv. apply Hf in Hv as (p & Hp & Hv). by eapply Hrange. Qed.

    (** What the choice of [a] in [m], with the data [dn] taken already, amounts to. *)
    Definition good_choice (m : State) (dn : list AttestationData) (a : AggAtt) : Prop :=
      full_vote pool a /\ cp_root (ad_head (at_data a)) ∈ known /\ (self_vote a \/ useful m a) /\
      forall a', full_vote pool a' -> cp_root (ad_head (at_data a')) ∈ known -> at_data a' ∉ dn -> useful m a' ->
        (self_vote a -> ~ reaches_quorum m a') /\ (~ self_vote a -> ~ better m a' a).
    Definition exhausted (m : State) (dn : list AttestationData) : Prop :=
      forall a', full_vote pool a' -> cp_root (ad_head (at_data a')) ∈ known -> at_data a' ∉ dn -> ~ useful m a'.

    Lemma self_vote_spec a : is_genesis_self_vote (at_data a) = true <-> self_vote a.
    Proof. unfold is_genesis_self_vote, self_vote. by rewrite andb_true_iff, !N.eqb_eq. Qed.

    (** A useful vote of the pool is a candidate. *)
    Lemma useful_candidate m pre pj done (dn : list AttestationData) a' :
      process_attestations s2 pre = Ok m -> tracks pj m ->
      (forall r e, (r, e) ∈ pool -> r ∈ done -> pe_data e ∈ dn) ->
      full_vote pool a' -> cp_root (ad_head (at_data a')) ∈ known -> at_data a' ∉ dn -> useful m a' ->
      exists r e t, (r, e) ∈ pool /\ pe_data e = at_data a' /\ tier_of m a' t /\
        let X := coverage e ∖ default ∅ (pj_votes pj !! cp_root (ad_target (at_data a'))) in
        candidate pj done known (s_hist m) (lenN vals) (r, e)
          (mkScore t (N.of_nat (size X)) (cp_slot (ad_target (at_data a'))) (ad_slot (at_data a'))) X /\
        (forall v, v ∈ X <-> new_voter m a' v).
    Proof.
      intros Hpa Htr Hdn Hf Hkn Hnew [Hvc Hnv].
      assert (in_block m bs b pre) as Hib by (exists s0, s1, s2; done).
      destruct Hnv as [v Hv]. pose proof Hv as [Hv1 _]. apply Hf in Hv1 as (p & (r & e & Hin & Hd & _) & _).
      pose proof (fun v => full_coverage r e a' v Hin (eq_sym Hd) Hf) as HX.
      destruct (score_spec m bs b pre Hib pj Htr a' Hvc (coverage e) HX (fun v => full_range a' v Hf)) as (t & Ht & Hsc); [eauto|].
      exists r, e, t. split; [done|]. split; [done|]. split; [done|]. cbn zeta.
      split; [|intros w; exact (new_spec m pj Htr a' Hvc (coverage e) HX (fun v => full_range a' v Hf) w)].
      split; [|split]; cbn [fst snd].
      - intros Hd'. apply Hnew. rewrite <- Hd. by eapply Hdn.
      - rewrite Hd. eapply (filters_count m bs b pre Hib pj Htr); [|done].
        apply not_true_iff_false. rewrite self_vote_spec. intros [H1 H2].
        destruct Hvc as (_ & _ & _ & _ & _ & Hlt & _). lia.
      - rewrite Hd. done.
    Qed.

    Lemma pick_good m pre pj done (dn : list AttestationData) root e sc new a :
      process_attestations s2 pre = Ok m -> tracks pj m ->
      (forall r e, (r, e) ∈ pool -> r ∈ done -> pe_data e ∈ dn) ->
      pick_best_candidate pj done known (s_hist m) (lenN vals) pool = Some (root, e, sc, new) ->
      at_data a = pe_data e -> full_vote pool a ->
      good_choice m dn a /\
      forall m' pj', process_attestations m [a] = Ok m' -> advance pj (sc_tier sc) (pe_data e) new = Ok pj' -> tracks pj' m'.
    Proof.
      intros Hpa Htr Hdn Hpick Hd Hf.
      assert (in_block m bs b pre) as Hib by (exists s0, s1, s2; done).
      apply pick_spec in Hpick as (Hin & Hcand & Hbest).
      pose proof (fun v => full_coverage root e a v Hin Hd Hf) as HX.
      destruct Hcand as (_ & Hpf & Hsc). cbn [fst snd] in Hpf, Hsc.
      destruct (is_genesis_self_vote (at_data a)) eqn:Hg.
      - assert (sc_tier sc = TBuild) as Htier.
        { unfold score_entry in Hsc. rewrite <- Hd, Hg in Hsc. destruct (bool_decide _); [done|]. cbn in Hsc. by injection Hsc as <- _. }
        apply self_vote_spec in Hg as Hself. split.
        + split; [done|]. split.
          { rewrite Hd. unfold passes_filters in Hpf. rewrite !andb_true_iff, bool_decide_eq_true in Hpf. tauto. }
          split; [by left|]. intros a' Hf' Hkn' Hn' Hu'. split; [|tauto]. intros _ Hrq.
          destruct (useful_candidate m pre pj done dn a' Hpa Htr Hdn Hf' Hkn' Hn' Hu') as (r' & e' & t & Hin' & Hd' & Ht & Hc' & _).
          specialize (Hbest _ _ _ Hin' Hc'). apply not_true_iff_false in Hbest. apply Hbest. clear Hbest.
          unfold ordering_key. rewrite Htier. cbn [sc_tier]. destruct t; [| |by destruct Ht];
            apply key_lt_spec; left; cbn; lia.
        + intros m' pj' Hok Ha. rewrite Htier, <- Hd in Ha.
          eapply self_tracks; [exact Hib|exact Htr|exact Hg| |exact Hok|exact Ha].
          rewrite Hd. by apply (filters_spec iter) in Hpf as (_ & _ & ?).
      - rewrite <- Hd in Hpf, Hsc.
        pose proof (proj1 (filters_count m bs b pre Hib pj Htr (at_data a) known Hg) Hpf) as [Hkn Hvc].
        assert (exists v, new_voter m a v) as Hnv.
        { apply score_new in Hsc as [-> Hne]. apply set_choose_L in Hne as [v Hv]. exists v.
          by apply (new_spec m pj Htr a Hvc (coverage e) HX (fun v => full_range a v Hf)). }
        destruct (score_spec m bs b pre Hib pj Htr a Hvc (coverage e) HX (fun v => full_range a v Hf) Hnv) as (t & Ht & Hsc').
        rewrite Hsc in Hsc'. injection Hsc' as -> ->. cbn [sc_tier] in *.
        assert (~ self_vote a) as Hns by (rewrite <- self_vote_spec; congruence).
        split.
        + split; [done|]. split; [done|]. split; [right; by split|].
          intros a' Hf' Hkn' Hn' Hu'. split; [tauto|]. intros _ Hb.
          destruct (useful_candidate m pre pj done dn a' Hpa Htr Hdn Hf' Hkn' Hn' Hu') as (r' & e' & t' & Hin' & Hd' & Ht' & Hc' & HX').
          specialize (Hbest _ _ _ Hin' Hc'). apply not_true_iff_false in Hbest. apply Hbest. clear Hbest.
          pose proof (fun v => new_spec m pj Htr a Hvc (coverage e) HX (fun v => full_range a v Hf) v) as HXn.
          set (Y' := coverage e' ∖ _) in *. set (Y := coverage e ∖ _) in *.
          destruct Hb as [Hq Hfi Hn|Hq Hn|k' k Hq' Hq Hiff Hk' Hk0 Hl|k' k Hq' Hq Hk' Hk0 Hl].
          * destruct t'; [|by destruct Ht'|by destruct Ht'].
            unfold ordering_key. cbn [sc_tier]. destruct t; [exfalso; apply Hn, Ht|..]; apply key_lt_spec; left; cbn; lia.
          * destruct t; [by destruct Ht|by destruct Ht|].
            unfold ordering_key. cbn [sc_tier]. destruct t'; [..|by destruct Ht']; apply key_lt_spec; left; cbn; lia.
          * pose proof (counts_set _ _ _ HX' Hk') as ->. pose proof (counts_set _ _ _ HXn Hk0) as ->.
            unfold larger in Hl.
            assert (t' = t) as ->.
            { destruct t, t'; try done; destruct Ht as [H1 H2]; destruct Ht' as [H3 H4]; tauto || done. }
            unfold ordering_key. cbn [sc_tier sc_new sc_target sc_slot].
            destruct t; [| |by destruct Ht]; apply key_lt_spec; right; split; (reflexivity || lia).
          * pose proof (counts_set _ _ _ HX' Hk') as ->. pose proof (counts_set _ _ _ HXn Hk0) as ->.
            unfold larger in Hl.
            assert (t = TBuild) as -> by (destruct t; [by destruct Ht|by destruct Ht|done]).
            assert (t' = TBuild) as -> by (destruct t'; [by destruct Ht'|by destruct Ht'|done]).
            unfold ordering_key. cbn [sc_tier sc_new sc_target sc_slot].
            apply key_lt_spec; right; split; (reflexivity || lia).
        + intros m' pj' Hok Ha. rewrite <- Hd in Ha. destruct Hnv as [v [Hv _]].
          eapply (advance_tracks m bs b pre Hib pj Htr a Hvc (coverage e) HX (fun v => full_range a v Hf)); [exact Hok|eauto|exact Ht|exact Ha].
    Qed.

    Notation Pick := (H256 * PayloadEntry * EntryScore * gset N)%type (only parsing).
    Lemma run_good hist pj done (ps : list Pick) pj2 atts pre (dn : list AttestationData) m :
      picked known hist (lenN vals) pool pj done ps pj2 ->
      Forall2 (fun (x : Pick) a => at_data a = pick_data x /\ full_vote pool a) ps atts ->
      process_attestations s2 pre = Ok m -> tracks pj m -> s_hist m = hist ->
      (forall r e, (r, e) ∈ pool -> r ∈ done -> pe_data e ∈ dn) ->
      distinct_data (pre ++ atts) <= MAX_ATTESTATIONS_DATA ->
      (exists m2, process_attestations s2 (pre ++ atts) = Ok m2) ->
      (forall l a k, atts = l ++ a :: k ->
         exists mid, process_attestations s2 (pre ++ l) = Ok mid /\ good_choice mid (dn ++ map at_data l) a) /\
      exists m2, process_attestations s2 (pre ++ atts) = Ok m2 /\ tracks pj2 m2 /\ s_hist m2 = hist.
    Proof.
      intros Hps. revert atts pre dn m.
      induction Hps as [pj done|pj done root e sc new pj1 ps pj2 Hp Ha Hps IH];
        intros atts pre dn m Hall Hpa Htr Hh Hdn Hdd [m2 Hm2]; inversion Hall as [|x a ps' atts' [Hd Hf] Hall']; subst.
      - rewrite app_nil_r in *. split; [intros l a k H; by destruct l|]. eauto.
      - change (at_data a = pe_data e) in Hd.
        destruct (pick_good m pre pj done dn root e sc new a Hpa Htr Hdn Hp Hd Hf) as [Hgood Hnext].
        pose proof (chain_has_facts _ _ _ _ _ _ _ Hch) as Hcf.
        pose proof (header_step _ _ _ _ _ _ _ _ _ _ Hcf Hp1 Hp2) as Hhf.
        pose proof (header_state_inv _ _ _ _ _ _ _ _ _ Hcf Hhf) as [Hinv2 Hcan2].
        assert (state_inv triv s2) as Hsi by (split; [by eapply loop_inv_mono, Hinv2|done]).
        pose proof (hf_limit _ _ _ _ _ _ _ _ _ Hhf) as Hlim.
        assert (lenN (s_validators s2) <= VALIDATOR_REGISTRY_LIMIT) as Hv2 by (by rewrite (hf_vals _ _ _ _ _ _ _ _ _ Hhf)).
        assert (pre ++ a :: atts' = (pre ++ [a]) ++ atts') as Heq by (by rewrite <- app_assoc).
        rewrite Heq in *.
        destruct (process_prefix _ _ _ _ Hsi Hlim Hv2 Hm2) as [m1 Hm1].
        assert (process_attestations m [a] = Ok m1) as Hone.
        { rewrite <- Hm1. symmetry. eapply in_block_app; [exact Hch|exact Hp1|exact Hp2|exact Hpa|].
          pose proof (distinct_app_l (pre ++ [a]) atts'). lia. }
        assert (s_hist m1 = s_hist m) as Hh1.
        { assert (in_block m bs b pre) as Hib by (exists s0, s1, s2; done).
          destruct (att_step hs hh hb gt vals Hreg _ _ _ _ _ _ Hib Hone) as [Hfr _]. apply (fr_hist _ _ Hfr). }
        destruct (IH atts' (pre ++ [a]) (dn ++ [at_data a]) m1) as [IH1 IH2]; try done.
        + by eapply Hnext.
        + intros r0 e0 Hin Hr0. apply elem_of_app. apply elem_of_cons in Hr0 as [->|Hr0]; [|left; by eapply Hdn].
          right. apply elem_of_list_singleton. rewrite Hd. apply pick_spec in Hp as (Hin' & _).
          f_equal. apply elem_of_list_lookup in Hin as [i Hi], Hin' as [j Hj].
          assert (i = j) as <-; [|rewrite Hi in Hj; by injection Hj].
          eapply (NoDup_lookup (map fst pool)); [by apply (ky_once _ _ Hk)|by rewrite list_lookup_fmap, Hi|by rewrite list_lookup_fmap, Hj].
        + eauto.
        + split; [|done]. intros [|a0 l] a1 k Hsplit; cbn [app] in Hsplit.
          * injection Hsplit as <- <-. exists m. rewrite !app_nil_r. done.
          * injection Hsplit as <- ->. destruct (IH1 l a1 k eq_refl) as (mid & H1 & H2).
            exists mid. cbn [map]. rewrite <- app_assoc in H1, H2. done.
    Qed.
  End Run.
End Proj.
