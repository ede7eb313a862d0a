(** Chain-level invariants of the state transition. *)
From Verif Require Export STFInv.

Definition state_inv (inc : N -> N -> Prop) (s : State) : Prop :=
  loop_inv inc s (tallies_of s) /\ canonical s.

Lemma loop_inv_mono (inc inc' : N -> N -> Prop) s m :
  (forall r v, inc r v -> inc' r v) -> loop_inv inc s m -> loop_inv inc' s m.
Proof.
  intros Hmono [Hn Hwin Hfj Hjl HF HJ HJst Hm Hsup HsupJ HsupF HJ0 HF0].
  assert (forall n r, two_thirds n (inc r) -> two_thirds n (inc' r)) as H2.
  { intros n r (vs & Hnd & Hvs & Hl). exists vs. split; [done|]. split; [|done].
    intros v Hv. destruct (Hvs v Hv). auto. }
  split; try done.
  - intros r vs Hr. destruct (Hm _ _ Hr) as (? & ? & ? & ?). eauto 10.
  - intros t Ht Htj. destruct (Hsup t Ht Htj) as (r & ? & ? & ?). eauto.
  - eauto.
  - eauto.
Qed.

(** [loop_inv] only looks at some components. *)
Lemma loop_inv_votes inc s m roots vs :
  loop_inv inc s m -> loop_inv inc (with_votes s roots vs) m.
Proof. intros []. by split. Qed.

Lemma serialize_no_panic inc s m :
  loop_inv inc s m -> lenN (s_hist s) <= HISTORICAL_ROOTS_LIMIT ->
  lenN (s_validators s) <= VALIDATOR_REGISTRY_LIMIT ->
  exists s', serialize_justifications s m = Ok s'.
Proof.
  intros Hinv Hh Hv. unfold serialize_justifications. fold (sorted_keys m).
  assert (lenN (sorted_keys m) <= lenN (s_hist s)) as Hle.
  { assert (sorted_keys m ⊆+ s_hist s) as Hsub.
    { apply NoDup_submseteq; [apply StronglySorted_lt_NoDup, sorted_keys_sorted|].
      intros r [vs Hr]%sorted_keys_elem.
      destruct (li_m _ _ _ Hinv _ _ Hr) as (_ & _ & (t & _ & Ht) & _).
      apply elem_of_list_lookup. eauto. }
    apply submseteq_length in Hsub. unfold lenN. lia. }
  unfold JUSTIFICATION_VALIDATORS_LIMIT.
  destruct (N.ltb_spec (HISTORICAL_ROOTS_LIMIT * VALIDATOR_REGISTRY_LIMIT)
              (lenN (sorted_keys m) * lenN (s_validators s))) as [Hlt|_].
  { exfalso. unfold HISTORICAL_ROOTS_LIMIT, VALIDATOR_REGISTRY_LIMIT in *. nia. }
  destruct (N.ltb_spec HISTORICAL_ROOTS_LIMIT (lenN (sorted_keys m))); [lia|].
  eauto.
Qed.

Lemma canonical_no_zero inc s :
  loop_inv inc s (tallies_of s) -> canonical s ->
  existsb (fun r => r =? ZERO) (s_jroots s) = false.
Proof.
  intros Hinv Hc. apply not_true_iff_false. intros (r & Hin & Hr)%existsb_exists.
  apply N.eqb_eq in Hr as ->. apply elem_of_list_In in Hin.
  apply (canonical_tallies_keys s) in Hin as [vs Hvs]; [|done].
  destruct (li_m _ _ _ Hinv _ _ Hvs) as (_ & ? & _). done.
Qed.

(** On states satisfying the invariant the structural checks pass. *)
Lemma process_attestations_unfold inc s atts :
  state_inv inc s ->
  process_attestations s atts =
  if MAX_ATTESTATIONS_DATA <? distinct_data atts then Err TooManyAttestationData
  else
    let! sm := process_all (root_to_slot (s_hist s) (Fs s)) (s, tallies_of s) atts in
    serialize_justifications sm.1 sm.2.
Proof.
  intros [Hinv Hc]. unfold process_attestations.
  destruct (MAX_ATTESTATIONS_DATA <? _); [done|].
  pose proof (li_n _ _ _ Hinv) as Hn.
  destruct (N.eqb_spec (N.of_nat (length (s_validators s))) 0); [lia|].
  assert (lenN (s_jvals s) = lenN (s_jroots s) * N.of_nat (length (s_validators s))) as ->.
  { unfold lenN. rewrite (can_len _ Hc). lia. }
  rewrite N.eqb_refl. cbn [negb]. rewrite (canonical_no_zero inc) by done. done.
Qed.

Definition votes_included (inc : N -> N -> Prop) (s : State) (atts : list AggAtt) : Prop :=
  forall a v, a ∈ atts -> votes_in v a ->
     root_at s (cp_slot (ad_target (at_data a))) = Some (cp_root (ad_target (at_data a))) ->
     inc (cp_root (ad_target (at_data a))) v.

Lemma process_attestations_inv inc s atts s' :
  state_inv inc s -> votes_included inc s atts ->
  process_attestations s atts = Ok s' ->
  state_inv inc s' /\ frame s s' /\ Fs s <= Fs s' /\ Js s <= Js s'.
Proof.
  intros Hsi Hvi. rewrite (process_attestations_unfold inc) by done.
  destruct Hsi as [Hinv Hc].
  destruct (_ <? _); [done|]. intros H. apply rbind_Ok in H as ([s1 m1] & H1 & H2).
  cbn [fst snd] in H2.
  destruct (process_all_inv inc (Fs s) atts s (tallies_of s) s1 m1) as (Hinv1 & HF & HJ & Hfr & Hr & Hvs);
    try done.
  destruct (serialize_spec s1 m1 s') as (Heq & Hc' & Ht & _); [|done|].
  { intros r v Hrv. by destruct (li_m _ _ _ Hinv1 _ _ Hrv). }
  split; [|split; [|by rewrite Heq]].
  - split; [|done]. rewrite Ht, Heq. by apply loop_inv_votes.
  - destruct Hfr. rewrite Heq. by split.
Qed.

Lemma process_attestations_no_panic inc s atts :
  state_inv inc s -> votes_included inc s atts ->
  lenN (s_hist s) <= HISTORICAL_ROOTS_LIMIT ->
  lenN (s_validators s) <= VALIDATOR_REGISTRY_LIMIT ->
  process_attestations s atts <> Panic.
Proof.
  intros Hsi Hvi Hh Hv. rewrite (process_attestations_unfold inc) by done.
  destruct (_ <? _); [done|]. intros H. destruct Hsi as [Hinv Hc].
  apply rbind_Panic in H as [H|([s1 m1] & H1 & H2)].
  - by eapply process_all_no_panic.
  - cbn [fst snd] in H2.
    destruct (process_all_inv inc (Fs s) atts s (tallies_of s) s1 m1) as (Hinv1 & HF & HJ & Hfr & Hr & Hvs);
      try done.
    destruct (serialize_no_panic inc s1 m1) as [s' Hs'].
    + done.
    + by rewrite (fr_hist _ _ Hfr).
    + by rewrite (fr_vals _ _ Hfr).
    + congruence.
Qed.

(** Splitting the attestation list. *)
Lemma process_attestations_app_inv inc s l k s1 :
  state_inv inc s -> votes_included inc s (l ++ k) ->
  distinct_data (l ++ k) <= MAX_ATTESTATIONS_DATA ->
  distinct_data k <= MAX_ATTESTATIONS_DATA ->
  process_attestations s l = Ok s1 ->
  process_attestations s (l ++ k) = process_attestations s1 k.
Proof.
  intros Hsi Hvi Hd Hdk Hl.
  assert (votes_included inc s l) as Hvl.
  { intros a v Ha. apply Hvi. apply elem_of_app. by left. }
  destruct (process_attestations_inv inc s l s1) as (Hsi1 & Hfr & HF & HJ); try done.
  rewrite (process_attestations_unfold inc s) by done.
  rewrite (process_attestations_unfold inc s1) by done.
  rewrite (process_attestations_unfold inc s) in Hl by done.
  destruct (N.ltb_spec MAX_ATTESTATIONS_DATA (distinct_data (l ++ k))); [lia|].
  destruct (N.ltb_spec MAX_ATTESTATIONS_DATA (distinct_data k)); [lia|].
  destruct (_ <? distinct_data l); [done|].
  apply rbind_Ok in Hl as ([s0 m0] & H1 & H2). cbn [fst snd] in H2.
  rewrite process_all_app, H1. cbn [rbind].
  destruct Hsi as [Hinv Hc].
  destruct (process_all_inv inc (Fs s) l s (tallies_of s) s0 m0) as (Hinv0 & HF0 & HJ0 & Hfr0 & Hr0 & Hv0);
    try done.
  destruct (serialize_spec s0 m0 s1) as (Heq & Hc' & Ht & Hroots); [|done|].
  { intros r v Hrv. by destruct (li_m _ _ _ Hinv0 _ _ Hrv). }
  rewrite Ht.
  assert (votes_included inc s0 k) as Hvk.
  { intros a v Ha Hav. unfold root_at. rewrite (fr_hist _ _ Hfr0).
    apply Hvi; [apply elem_of_app; by right|done]. }
  rewrite <- (fr_hist _ _ Hfr0).
  rewrite (process_all_rts (Fs s) (Fs s0) k inc) by (done || lia).
  (* the loop commutes with the choice of the stored votes *)
  assert (Hgen : forall rts k s m roots vs,
    rbind (process_all rts (s, m) k) (fun sm => serialize_justifications sm.1 sm.2) =
    rbind (process_all rts (with_votes s roots vs, m) k)
          (fun sm => serialize_justifications sm.1 sm.2)).
  { clear. intros rts k. induction k as [|a k IH]; intros s m roots vs; [done|].
    cbn [process_all].
    assert (process_one rts (with_votes s roots vs, m) a =
            rbind (process_one rts (s, m) a) (fun sm => Ok (with_votes sm.1 roots vs, sm.2))) as ->.
    { unfold process_one. change (is_valid_vote (with_votes s roots vs) (at_data a)) with
        (is_valid_vote s (at_data a)).
      destruct (is_valid_vote s (at_data a)) as [[]|e|]; cbn [rbind negb]; try done.
      destruct (_ =? 0); [done|]. cbn [s_validators with_votes].
      destruct (has_oob_bit _ _); [done|]. destruct (_ <=? _); [|done].
      cbn [s_jslots s_finalized with_justified with_votes].
      destruct (set_justified _ _ _); cbn [rbind]; try done.
      unfold try_finalize. cbn [s_finalized with_jslots with_justified with_votes].
      destruct (_ <=? _); [done|]. destruct (any_justifiable _ _ _); done. }
    destruct (process_one rts (s, m) a) as [[s1 m1]|e|]; cbn [rbind]; [|done|done].
    apply IH. }
  rewrite (Hgen _ _ _ _ (s_jroots s1) (s_jvals s1)). rewrite <- Heq.
  rewrite Heq. done.
Qed.

Section Chain.
  Context (hash_state : State -> H256) (hash_header : Header -> H256)
          (hash_body : list AggAtt -> H256).
  Context (gt : N) (vals : list Validator).
  Notation chain := (chain hash_state hash_header hash_body gt vals).
  Notation in_block := (in_block hash_state hash_header hash_body gt vals).
  Notation genesis_root := (genesis_root hash_state hash_header hash_body gt vals).
  Notation entries := (chain_entries hash_state hash_header hash_body gt vals).
  Notation gen := (genesis hash_body gt vals).
  Notation process_slots := (process_slots hash_state).
  Notation process_block_header := (process_block_header hash_header hash_body).
  Notation state_transition := (state_transition hash_state hash_header hash_body).
  Notation block_root := (block_root hash_header hash_body).

  (** Root of the most recent block. *)
  Definition last_entry (bs : list Block) : N * H256 :=
    match last bs with
    | Some b => (b_slot b, block_root b)
    | None => (0, genesis_root)
    end.

  Lemma included_vote_mono s s' bs bs' r v :
    s_hist s `prefix_of` s_hist s' -> bs ⊆ bs' ->
    included_vote s bs r v -> included_vote s' bs' r v.
  Proof.
    intros Hp Hsub (b & a & Hb & Ha & Hv & Hr & Hroot).
    exists b, a. split; [by apply Hsub|]. split; [done|]. split; [done|].
    split; [done|]. unfold root_at in *. eapply prefix_lookup; done.
  Qed.

  (** Facts about chain states that do not concern votes. *)
  Record chain_facts (s : State) (bs : list Block) : Prop := {
    cf_slot : s_slot s = h_slot (s_header s);
    cf_sr : h_state_root (s_header s) = ZERO;
    cf_len : lenN (s_hist s) = h_slot (s_header s);
    cf_limit : lenN (s_hist s) <= HISTORICAL_ROOTS_LIMIT;
    cf_vals : s_validators s = vals;
    cf_gt : s_genesis_time s = gt;
    cf_root : (h_slot (s_header s), hash_header (set_state_root (s_header s) (hash_state s)))
              = last_entry bs;
    cf_case : (bs = [] /\ s = gen) \/
              (0 < h_slot (s_header s) /\ bs <> [] /\ state_inv (included_vote s bs) s) }.

  Lemma process_slots_inv s t s1 :
    h_state_root (s_header s) = ZERO ->
    process_slots s t = Ok s1 ->
    s_slot s < t /\
    s1 = with_slot (with_header s (set_state_root (s_header s) (hash_state s))) t.
  Proof.
    intros Hz. unfold STF.process_slots. rewrite Hz, N.eqb_refl.
    destruct (N.leb_spec t (s_slot s)); [done|]. intros [= <-]. done.
  Qed.

  Lemma process_block_header_inv s b s2 :
    process_block_header s b = Ok s2 ->
    let pr := hash_header (s_header s) in
    let s1 := if h_slot (s_header s) =? 0 then
                  with_finalized (with_justified s (mkCp pr (Js s))) (mkCp pr (Fs s))
              else s in
    b_slot b = s_slot s /\ h_slot (s_header s) < b_slot b /\
    (0 < lenN (s_validators s) /\ b_proposer b = b_slot b mod lenN (s_validators s)) /\
    b_parent b = pr /\
    lenN (s_hist s) + 1 + (b_slot b - h_slot (s_header s) - 1) <= HISTORICAL_ROOTS_LIMIT /\
    exists js, extend_to_slot (s_jslots s) (Fs s) (b_slot b - 1) = Ok js /\
      s2 = with_header (with_jslots (with_hist s1
             (s_hist s ++ pr :: replicate (N.to_nat (b_slot b - h_slot (s_header s) - 1)) ZERO)) js)
             (mkHeader (b_slot b) (b_proposer b) (b_parent b) ZERO (hash_body (b_atts b))).
  Proof.
    unfold STF.process_block_header, current_proposer.
    destruct (N.eqb_spec (b_slot b) (s_slot s)) as [Hs|]; [|done]. cbn [negb].
    destruct (N.leb_spec (b_slot b) (h_slot (s_header s))); [done|].
    destruct (N.ltb_spec 0 (lenN (s_validators s))); [|done].
    destruct (N.eqb_spec (b_proposer b) (b_slot b mod lenN (s_validators s))); [|done]. cbn [negb].
    destruct (N.eqb_spec (b_parent b) (hash_header (s_header s))); [|done]. cbn [negb].
    destruct (N.ltb_spec HISTORICAL_ROOTS_LIMIT
      (lenN (s_hist s) + 1 + (b_slot b - h_slot (s_header s) - 1))); [done|].
    intros Hb. apply rbind_Ok in Hb as (js & Hjs & [= <-]).
    cbn zeta. repeat (split; [done|]). exists js. split; [|done].
    destruct (h_slot (s_header s) =? 0); done.
  Qed.

  (** State after slots and header, on top of a chain state. *)
  Record header_facts (s : State) (bs : list Block) (b : Block) (s2 : State) : Prop := {
    hf_lt : s_slot s < b_slot b;
    hf_slot : s_slot s2 = b_slot b;
    hf_header : s_header s2 =
      mkHeader (b_slot b) (b_proposer b) (b_parent b) ZERO (hash_body (b_atts b));
    hf_n : 0 < lenN vals;
    hf_prop : b_proposer b = b_slot b mod lenN vals;
    hf_parent : b_parent b = (last_entry bs).2;
    hf_hist : s_hist s2 = s_hist s ++ (last_entry bs).2 ::
      replicate (N.to_nat (b_slot b - h_slot (s_header s) - 1)) ZERO;
    hf_len : lenN (s_hist s2) = b_slot b;
    hf_limit : lenN (s_hist s2) <= HISTORICAL_ROOTS_LIMIT;
    hf_vals : s_validators s2 = vals;
    hf_gt : s_genesis_time s2 = gt;
    hf_F : Fs s2 = Fs s;
    hf_J : Js s2 = Js s;
    hf_roots : if h_slot (s_header s) =? 0 then
                 cp_root (s_finalized s2) = (last_entry bs).2 /\
                 cp_root (s_justified s2) = (last_entry bs).2
               else s_finalized s2 = s_finalized s /\ s_justified s2 = s_justified s;
    hf_js : exists js, extend_to_slot (s_jslots s) (Fs s) (b_slot b - 1) = Ok js /\
              s_jslots s2 = js;
    hf_votes : s_jroots s2 = s_jroots s /\ s_jvals s2 = s_jvals s }.

  Lemma header_step s bs b s1 s2 :
    chain_facts s bs ->
    process_slots s (b_slot b) = Ok s1 ->
    process_block_header s1 b = Ok s2 ->
    header_facts s bs b s2.
  Proof.
    intros Hcf Hps Hbh.
    apply process_slots_inv in Hps as [Hlt ->]; [|by apply (cf_sr _ _ Hcf)].
    apply process_block_header_inv in Hbh. cbn in Hbh.
    destruct Hbh as (_ & Hslot & (Hn & Hprop) & Hpar & Hlim & js & Hjs & Heq).
    assert (hash_header (set_state_root (s_header s) (hash_state s)) = (last_entry bs).2) as Hroot.
    { by rewrite <- (cf_root _ _ Hcf). }
    rewrite Hroot in *. rewrite (cf_vals _ _ Hcf) in *. rewrite (cf_len _ _ Hcf) in *.
    assert (s_hist s2 = s_hist s ++ (last_entry bs).2 ::
      replicate (N.to_nat (b_slot b - h_slot (s_header s) - 1)) ZERO) as Hhist by (by rewrite Heq).
    assert (lenN (s_hist s2) = b_slot b) as Hlen.
    { rewrite Hhist, lenN_app, lenN_cons, lenN_replicate, (cf_len _ _ Hcf). lia. }
    pose proof (cf_gt _ _ Hcf) as Hgt. pose proof (cf_vals _ _ Hcf) as Hvals.
    split; try done; try (rewrite Hlen; lia).
    all: try (rewrite Heq; cbn; by destruct (h_slot (s_header s) =? 0)).
    rewrite Heq. cbn. by eauto.
  Qed.

  Lemma header_prefix s bs b s2 :
    header_facts s bs b s2 -> s_hist s `prefix_of` s_hist s2.
  Proof. intros H. rewrite (hf_hist _ _ _ _ H). by apply prefix_app_r. Qed.

  Lemma header_state_inv s bs b s2 :
    chain_facts s bs -> header_facts s bs b s2 ->
    state_inv (included_vote s2 (bs ++ [b])) s2.
  Proof.
    intros Hcf Hhf.
    destruct (hf_js _ _ _ _ Hhf) as (js & Hjs & Hjs2).
    pose proof (extend_to_slot_length _ _ _ _ Hjs) as Hjl.
    pose proof (extend_to_slot_spec _ _ _ _ Hjs) as Hjst.
    pose proof (hf_votes _ _ _ _ Hhf) as [Hr2 Hv2].
    pose proof (hf_vals _ _ _ _ Hhf) as Hvals2.
    pose proof (hf_len _ _ _ _ Hhf) as Hlen2.
    pose proof (hf_lt _ _ _ _ Hhf) as Hlt.
    pose proof (cf_slot _ _ Hcf) as Hsl.
    pose proof (hf_roots _ _ _ _ Hhf) as Hroots.
    pose proof (hf_n _ _ _ _ Hhf) as Hn.
    pose proof (header_prefix _ _ _ _ Hhf) as Hpre.
    pose proof (hf_F _ _ _ _ Hhf) as HF. pose proof (hf_J _ _ _ _ Hhf) as HJ.
    destruct (cf_case _ _ Hcf) as [[-> ->]|(HL & Hbs & Hinv & Hcan)].
    - cbn in *. rewrite lenN_nil in Hjl.
      assert (root_at s2 0 = Some (genesis_root)) as Hr0.
      { unfold root_at. rewrite (hf_hist _ _ _ _ Hhf). done. }
      assert (tallies_of s2 = ∅) as Htal.
      { unfold tallies_of. rewrite Hr2. done. }
      split; [|split].
      + rewrite Htal. split.
        * unfold lenN in Hn. rewrite Hvals2. lia.
        * rewrite Hjs2, HF, Hlen2. lia.
        * lia.
        * lia.
        * rewrite HF, Hr0. by destruct Hroots as [-> _].
        * rewrite HJ, Hr0. by destruct Hroots as [_ ->].
        * unfold slot_justified. rewrite HJ. apply status_le. lia.
        * intros r vs. by rewrite lookup_empty.
        * intros t Ht Htj. unfold slot_justified in Htj. rewrite HF in Ht, Htj.
          rewrite Hjs2, Hjst in Htj. destruct (status [] 0 t) eqn:Es.
          -- rewrite status_gt in Es by done. by rewrite lookup_nil in Es.
          -- by destruct (t <=? b_slot b - 1).
        * lia.
        * lia.
        * lia.
        * lia.
      + rewrite Hr2. constructor.
      + rewrite Hr2, Hv2. done.
    - assert (h_slot (s_header s) =? 0 = false) as Hz by lia. rewrite Hz in Hroots.
      destruct Hroots as [HFc HJc].
      assert (tallies_of s2 = tallies_of s) as Htal.
      { unfold tallies_of. rewrite Hr2, Hv2, Hvals2, (cf_vals _ _ Hcf). done. }
      apply (loop_inv_mono _ (included_vote s2 (bs ++ [b]))) in Hinv.
      2:{ intros r v. apply included_vote_mono; [done|]. intros x Hx. apply elem_of_app. by left. }
      assert (forall t r, root_at s t = Some r -> root_at s2 t = Some r) as Hroot.
      { intros t r. unfold root_at. intros Ht. by eapply prefix_lookup. }
      assert (forall t, status (s_jslots s2) (Fs s) t =
        match status (s_jslots s) (Fs s) t with
        | Some b => Some b
        | None => if t <=? b_slot b - 1 then Some false else None end) as Hst.
      { intros t. by rewrite Hjs2, Hjst. }
      pose proof (cf_len _ _ Hcf) as Hlen.
      split; [|split].
      + rewrite Htal. destruct Hinv as [In Iwin Ifj Ijl IF IJ IJst Im Isup IsupJ IsupF IJ0 IF0]. split.
        * unfold lenN in Hn. rewrite Hvals2. lia.
        * rewrite Hjs2, HF, Hlen2, Hjl. lia.
        * lia.
        * lia.
        * rewrite HFc. by apply Hroot.
        * rewrite HJc. by apply Hroot.
        * unfold slot_justified in *. rewrite HF, HJ, Hst, IJst. done.
        * intros r vs Hr. destruct (Im _ _ Hr) as (I1 & I2 & (t & I3 & I4) & I5).
          rewrite Hvals2. rewrite (cf_vals _ _ Hcf) in I1.
          split; [done|]. split; [done|]. split; [|done].
          exists t. rewrite HF. split; [done|]. by apply Hroot.
        * intros t Ht Htj. unfold slot_justified in Htj. rewrite HF in Ht, Htj.
          rewrite Hst in Htj. destruct (status (s_jslots s) (Fs s) t) as [bb|] eqn:Es.
          -- injection Htj as ->. destruct (Isup t Ht Es) as (r & J1 & J2 & J3).
             exists r. rewrite Hvals2. rewrite (cf_vals _ _ Hcf) in J3.
             split; [by apply Hroot|done].
          -- by destruct (t <=? b_slot b - 1).
        * rewrite HJc, Hvals2. rewrite (cf_vals _ _ Hcf) in IsupJ. done.
        * rewrite HFc, Hvals2. rewrite (cf_vals _ _ Hcf) in IsupF. done.
        * by rewrite HJc.
        * by rewrite HFc.
      + rewrite Hr2. apply (can_sorted _ Hcan).
      + rewrite Hr2, Hv2, Hvals2. rewrite <- (cf_vals _ _ Hcf). apply (can_len _ Hcan).
  Qed.

  Lemma header_votes_included s2 bs b atts :
    atts ⊆ b_atts b ->
    votes_included (included_vote s2 (bs ++ [b])) s2 atts.
  Proof.
    intros Hsub a v Ha Hv Hr. exists b, a. split; [|split; [|split; [|split]]]; try done.
    - apply elem_of_app. right. by apply elem_of_list_singleton.
    - by apply Hsub.
  Qed.

  Lemma last_entry_snoc bs b : last_entry (bs ++ [b]) = (b_slot b, block_root b).
  Proof. unfold last_entry. by rewrite last_snoc. Qed.

  Lemma frame_included s s' bs r v :
    s_hist s' = s_hist s -> included_vote s bs r v -> included_vote s' bs r v.
  Proof. intros Hh. apply included_vote_mono; [by rewrite Hh|done]. Qed.

  Lemma state_transition_inv s bs b s' :
    chain_facts s bs -> state_transition s b = Ok s' ->
    exists s1 s2,
      process_slots s (b_slot b) = Ok s1 /\
      process_block_header s1 b = Ok s2 /\
      process_attestations s2 (b_atts b) = Ok s' /\
      header_facts s bs b s2 /\ frame s2 s' /\
      Fs s2 <= Fs s' /\ Js s2 <= Js s' /\
      state_inv (included_vote s' (bs ++ [b])) s' /\ b_state_root b = hash_state s'.
  Proof.
    intros Hcf H. unfold STF.state_transition in H.
    apply rbind_Ok in H as (s1 & H1 & H). apply rbind_Ok in H as (s2' & H2 & H).
    unfold process_block in H2. apply rbind_Ok in H2 as (s2 & Hbh & Hpa).
    destruct (N.eqb_spec (b_state_root b) (hash_state s2')) as [Hroot|]; [|done].
    injection H as <-.
    pose proof (header_step _ _ _ _ _ Hcf H1 Hbh) as Hhf.
    pose proof (header_state_inv _ _ _ _ Hcf Hhf) as Hsi.
    destruct (process_attestations_inv _ s2 (b_atts b) s2' Hsi) as ([Hinv Hcan] & Hfr & HF & HJ);
      [by apply header_votes_included|done|].
    exists s1, s2. repeat (split; [done|]). split; [|done]. split; [|done].
    eapply loop_inv_mono; [|done]. intros r v. apply frame_included. apply (fr_hist _ _ Hfr).
  Qed.

  Lemma chain_has_facts s bs : chain s bs -> chain_facts s bs.
  Proof.
    induction 1 as [|s bs b s' Hch IH Hst].
    - split; try done. by left.
    - destruct (state_transition_inv _ _ _ _ IH Hst)
        as (s1 & s2 & H1 & H2 & H3 & Hhf & Hfr & HF & HJ & Hsi & Hroot).
      pose proof (fr_header _ _ Hfr) as Hh. rewrite (hf_header _ _ _ _ Hhf) in Hh.
      pose proof (fr_hist _ _ Hfr) as Hhist.
      pose proof (hf_lt _ _ _ _ Hhf) as Hlt.
      split.
      + rewrite (fr_slot _ _ Hfr), (hf_slot _ _ _ _ Hhf), Hh. done.
      + by rewrite Hh.
      + rewrite Hhist, (hf_len _ _ _ _ Hhf), Hh. done.
      + rewrite Hhist. apply (hf_limit _ _ _ _ Hhf).
      + rewrite (fr_vals _ _ Hfr). apply (hf_vals _ _ _ _ Hhf).
      + rewrite (fr_gt _ _ Hfr). apply (hf_gt _ _ _ _ Hhf).
      + rewrite last_entry_snoc, Hh. unfold STF.block_root, header_of, set_state_root. cbn.
        by rewrite Hroot.
      + right. rewrite Hh. cbn. split; [lia|]. split; [|done].
        intros Hnil. by apply app_nil in Hnil as [_ ?].
  Qed.

  Lemma in_block_inv s bs b prev :
    in_block s bs b prev -> prev ⊆ b_atts b ->
    exists s0 s2, chain_facts s0 bs /\ header_facts s0 bs b s2 /\ frame s2 s /\
      Fs s2 <= Fs s /\ Js s2 <= Js s /\
      process_attestations s2 prev = Ok s /\
      state_inv (included_vote s2 (bs ++ [b])) s2 /\
      state_inv (included_vote s (bs ++ [b])) s.
  Proof.
    intros (s0 & s1 & s2 & Hch & H1 & H2 & H3) Hsub.
    pose proof (chain_has_facts _ _ Hch) as Hcf.
    pose proof (header_step _ _ _ _ _ Hcf H1 H2) as Hhf.
    pose proof (header_state_inv _ _ _ _ Hcf Hhf) as Hsi.
    destruct (process_attestations_inv _ s2 prev s Hsi) as ([Hinv Hcan] & Hfr & HF & HJ);
      [by apply header_votes_included|exact H3|].
    exists s0, s2. repeat (split; [done|]). split; [|done].
    eapply loop_inv_mono; [|done]. intros r v. apply frame_included. apply (fr_hist _ _ Hfr).
  Qed.
End Chain.
