(** Building a block succeeds. *)
From Verif Require Export BuilderThms.

Lemma oob_spec n bits :
  has_oob_bit n bits = true <-> exists v, N.of_nat n <= v /\ bits !! N.to_nat v = Some true.
Proof. apply (has_oob_spec (genesis (fun _ => 0) 0 [])); done. Qed.

Lemma distinct_le atts : distinct_data atts <= lenN atts.
Proof.
  unfold distinct_data, lenN. rewrite <- (map_length at_data atts).
  induction (map at_data atts) as [|d l IH]; cbn; [done|]. destruct (decide_rel _ _ _); cbn; lia.
Qed.

Lemma process_all_ok inc F0 atts s m :
  loop_inv inc s m -> F0 <= Fs s ->
  (forall a v, a ∈ atts -> votes_in v a ->
     root_at s (cp_slot (ad_target (at_data a))) = Some (cp_root (ad_target (at_data a))) ->
     inc (cp_root (ad_target (at_data a))) v) ->
  (forall a, a ∈ atts -> (exists v, votes_in v a) /\ (forall v, votes_in v a -> v < lenN (s_validators s)) /\
     cp_slot (ad_source (at_data a)) < lenN (s_hist s) /\ cp_slot (ad_target (at_data a)) < lenN (s_hist s)) ->
  exists s' m', process_all (root_to_slot (s_hist s) F0) (s, m) atts = Ok (s', m').
Proof.
  revert s m. induction atts as [|a atts IH]; intros s m Hinv HF Hinc Hall; cbn [process_all]; [eauto|].
  destruct (Hall a ltac:(left)) as ([v0 Hv0] & Hrange & Hsrc & Htgt).
  pose proof (process_one_no_panic inc (root_to_slot (s_hist s) F0) s m a Hinv) as Hnp.
  assert (forall t, t < lenN (s_hist s) -> is_Some (status (s_jslots s) (Fs s) t)) as Htr.
  { intros t Ht. apply status_tracked. pose proof (li_win _ _ _ Hinv). lia. }
  assert (exists b, is_valid_vote s (at_data a) = Ok b) as [b Hb].
  { unfold is_valid_vote. rewrite !is_slot_justified_status.
    destruct (Htr _ Hsrc) as [x ->]. destruct (Htr _ Htgt) as [y ->]. cbn [rbind].
    destruct x; cbn [negb]; [|eauto]. destruct y; [eauto|]. destruct (negb _); [eauto|]. destruct (_ <=? _); [eauto|].
    destruct (negb _); eauto. }
  destruct (process_one (root_to_slot (s_hist s) F0) (s, m) a) as [[s1 m1]|e|] eqn:E; [|exfalso|done].
  - cbn [rbind]. apply process_one_spec in E; [|done].
    destruct (loop_inv_step inc s m a s1 m1 Hinv) as (Hinv1 & HF1 & HJ1); [|exact E|].
    { intros v. apply Hinc. left. }
    destruct (one_step_frame _ _ _ _ _ E) as (Hfr & Hr & Hvs).
    rewrite <- (fr_hist _ _ Hfr). apply IH; [done|lia| |].
    + intros a' v Ha' Hvi. unfold root_at. rewrite (fr_hist _ _ Hfr). apply Hinc; [by right|done].
    + intros a' Ha'. rewrite (fr_hist _ _ Hfr), (fr_vals _ _ Hfr). apply Hall. by right.
  - unfold process_one in E. rewrite Hb in E. cbn [rbind] in E. destruct b; cbn [negb] in E; [|done].
    destruct (N.eqb_spec (count_true (at_bits a)) 0) as [Hz|_].
    { apply count_true_0 with (i := N.to_nat v0) in Hz. done. }
    destruct (has_oob_bit (length (s_validators s)) (at_bits a)) eqn:Ho.
    { apply oob_spec in Ho as (v & Hv & Hge). specialize (Hrange v Hge). unfold lenN in Hrange. lia. }
    destruct (_ <=? _); [|done].
    destruct (set_justified _ _ _) as [js|e'|] eqn:Hj; cbn [rbind] in E; [done| |done].
    by apply set_justified_Err in Hj.
Qed.

Section Live.
  Context (E : Env) (P : Prover) (iter : AttestationData -> nat -> list nat -> list nat).
  Context (Hiter : forall d, an_order (iter d)).
  Context (gt : N) (vals : list Validator).
  Notation hs := (e_state E).
  Notation hh := (e_header E).
  Notation hb := (e_body E).
  Notation chain_ := (chain hs hh hb gt vals).

  Lemma build_seal s slot proposer parent known pool pc :
    build_block E P iter (NodeProofs.seal E s) slot proposer parent known pool pc =
    build_block E P iter s slot proposer parent known pool pc.
  Proof.
    unfold build_block, select_attestations, extended_hist. rewrite process_slots_seal, seal_hslot. done.
  Qed.

  Lemma filled_root s bs : chain_ s bs -> hh (filled_header hs s) = (last_entry hs hh hb gt vals bs).2.
  Proof.
    intros Hc. apply chain_has_facts in Hc. rewrite <- (cf_root _ _ _ _ _ _ _ Hc). cbn.
    unfold filled_header. by rewrite (cf_sr _ _ _ _ _ _ _ Hc), N.eqb_refl.
  Qed.

  Lemma header_ok s bs slot proposer atts :
    chain_ s bs -> s_slot s < slot -> slot <= HISTORICAL_ROOTS_LIMIT ->
    is_proposer proposer slot (lenN vals) = true ->
    let b := mkBlock slot proposer (hh (filled_header hs s)) ZERO atts in
    exists s1 s2, process_slots hs s slot = Ok s1 /\ process_block_header hh hb s1 b = Ok s2 /\
      header_facts hs hh hb gt vals s bs b s2.
  Proof.
    intros Hc Hlt Hlim Hprop b. pose proof (chain_has_facts _ _ _ _ _ _ _ Hc) as Hcf.
    assert (exists s1, process_slots hs s slot = Ok s1) as [s1 Hs1].
    { unfold process_slots. destruct (N.leb_spec slot (s_slot s)); [lia|]. eauto. }
    assert (exists s2, process_block_header hh hb s1 b = Ok s2) as [s2 Hs2].
    { pose proof Hs1 as Hs1'. apply process_slots_inv in Hs1' as [_ ->]; [|by apply (cf_sr _ _ _ _ _ _ _ Hcf)].
      unfold process_block_header, b. cbn [s_slot s_header with_slot with_header b_slot].
      rewrite N.eqb_refl. cbn [negb h_slot set_state_root].
      pose proof (cf_slot _ _ _ _ _ _ _ Hcf) as Hsl. pose proof (cf_len _ _ _ _ _ _ _ Hcf) as Hlen.
      destruct (N.leb_spec slot (h_slot (s_header s))); [lia|].
      cbn [s_validators with_slot with_header]. rewrite (cf_vals _ _ _ _ _ _ _ Hcf).
      apply is_proposer_spec in Hprop as [Hn ->]. unfold current_proposer.
      destruct (N.ltb_spec 0 (lenN vals)); [|lia]. cbn [b_proposer]. rewrite N.eqb_refl. cbn [negb b_parent].
      assert (filled_header hs s = set_state_root (s_header s) (hs s)) as ->.
      { unfold filled_header. by rewrite (cf_sr _ _ _ _ _ _ _ Hcf), N.eqb_refl. }
      rewrite N.eqb_refl. cbn [negb s_hist with_slot with_header].
      destruct (N.ltb_spec HISTORICAL_ROOTS_LIMIT (lenN (s_hist s) + 1 + (slot - h_slot (s_header s) - 1))); [lia|].
      edestruct (extend_to_slot_ok) as [js Hjs]; [|rewrite Hjs; cbn [rbind]; eauto]. lia. }
    exists s1, s2. split; [done|]. split; [done|]. eapply header_step; done.
  Qed.

  Lemma stf_ok s bs slot proposer atts :
    lenN vals <= VALIDATOR_REGISTRY_LIMIT ->
    chain_ s bs -> s_slot s < slot -> slot <= HISTORICAL_ROOTS_LIMIT ->
    is_proposer proposer slot (lenN vals) = true ->
    distinct_data atts <= MAX_ATTESTATIONS_DATA ->
    (forall a, a ∈ atts -> (exists v, votes_in v a) /\ (forall v, votes_in v a -> v < lenN vals) /\
       cp_slot (ad_source (at_data a)) < slot /\ cp_slot (ad_target (at_data a)) < slot) ->
    exists post, (let! s1 := process_slots hs s slot in
      process_block hh hb s1 (mkBlock slot proposer (hh (filled_header hs s)) ZERO atts)) = Ok post.
  Proof.
    intros Hreg Hc Hlt Hlim Hprop Hdd Hall.
    destruct (header_ok s bs slot proposer atts Hc Hlt Hlim Hprop) as (s1 & s2 & Hs1 & Hs2 & Hhf).
    rewrite Hs1. cbn [rbind]. unfold process_block. rewrite Hs2. cbn [rbind b_atts].
    pose proof (header_state_inv _ _ _ _ _ _ _ _ _ (chain_has_facts _ _ _ _ _ _ _ Hc) Hhf) as Hsi.
    rewrite (process_attestations_unfold _ _ _ Hsi). destruct (N.ltb_spec MAX_ATTESTATIONS_DATA (distinct_data atts)); [lia|].
    assert (votes_included (included_vote s2 (bs ++ [mkBlock slot proposer (hh (filled_header hs s)) ZERO atts])) s2 atts) as Hvi.
    { by apply header_votes_included. }
    pose proof (hf_len _ _ _ _ _ _ _ _ _ Hhf) as Hlen. cbn in Hlen.
    pose proof (hf_vals _ _ _ _ _ _ _ _ _ Hhf) as Hvs.
    destruct Hsi as [Hinv Hcan].
    destruct (process_all_ok _ (Fs s2) atts s2 (tallies_of s2) Hinv) as (s3 & m3 & H3); [lia|done| |].
    { intros a Ha. rewrite Hvs, Hlen. by apply Hall. }
    rewrite H3. cbn [rbind fst snd].
    destruct (process_all_inv _ (Fs s2) atts s2 (tallies_of s2) s3 m3 Hinv) as (Hinv1 & _ & _ & Hfr & _); try done.
    eapply serialize_no_panic; [done| |].
    - rewrite (fr_hist _ _ Hfr), Hlen. done.
    - rewrite (fr_vals _ _ Hfr), Hvs. done.
  Qed.

  Lemma hist_length s bs slot parent :
    chain_ s bs -> s_slot s < slot -> lenN (extended_hist s slot parent) = slot.
  Proof.
    intros Hc Hlt. pose proof (chain_has_facts _ _ _ _ _ _ _ Hc) as Hcf.
    pose proof (cf_slot _ _ _ _ _ _ _ Hcf). pose proof (cf_len _ _ _ _ _ _ _ Hcf).
    unfold extended_hist. rewrite lenN_app, lenN_cons, lenN_replicate. lia.
  Qed.

  Lemma filters_spec pj d known hist :
    passes_filters pj d known hist = true ->
    cp_slot (ad_source d) < lenN hist /\ cp_slot (ad_target d) < lenN hist /\
    attestation_data_matches_chain hist d = true.
  Proof.
    unfold passes_filters. rewrite !andb_true_iff. intros (((((_ & _) & Hm) & _) & _) & _).
    pose proof Hm as Hm'. apply matches_chain_true in Hm as (_ & H1 & H2 & _).
    apply lookup_lt_Some in H1, H2. unfold lenN. split; [lia|]. split; [lia|done].
  Qed.

  Lemma advance_ok pj t d new :
    cp_slot (ad_target d) <= HISTORICAL_ROOTS_LIMIT -> exists pj', advance pj t d new = Ok pj'.
  Proof.
    intros Hl. unfold advance. destruct t; [| |eauto].
    all: destruct (extend_to_slot_ok (pj_slots pj) (pj_fin pj) (cp_slot (ad_target d))) as [js Hjs]; [lia|];
      rewrite Hjs; cbn [rbind];
      destruct (set_justified_ok js (pj_fin pj) (cp_slot (ad_target d))) as [js' Hjs'];
        [|rewrite Hjs'; cbn [rbind]; eauto].
    all: pose proof (extend_to_slot_length _ _ _ _ Hjs); lia.
  Qed.

  Lemma select_ok k pj done known hist n pool :
    lenN hist <= HISTORICAL_ROOTS_LIMIT -> exists l, select_loop iter k pj done known hist n pool = Ok l.
  Proof.
    intros Hl. revert pj done. induction k as [|k IH]; intros pj done; cbn [select_loop]; [eauto|].
    destruct (pick_best_candidate pj done known hist n pool) as [[[[root e] sc] new]|] eqn:Hp; [|eauto].
    apply pick_spec in Hp as (_ & (_ & Hf & _) & _). apply filters_spec in Hf as (_ & Ht & _). cbn in Ht.
    destruct (advance_ok pj (sc_tier sc) (pe_data e) new) as [pj' ->]; [lia|].
    destruct (IH pj' (root :: done)) as [l ->]. cbn. eauto.
  Qed.

  Lemma picked_slots known hist n pool pj done ps pj2 :
    picked known hist n pool pj done ps pj2 ->
    forall x, x ∈ ps -> cp_slot (ad_source (pick_data x)) < lenN hist /\ cp_slot (ad_target (pick_data x)) < lenN hist /\
      attestation_data_matches_chain hist (pick_data x) = true.
  Proof.
    induction 1 as [|pj done root e sc new pj1 ps pj2 Hp Ha Hps IH]; intros x Hx; [by inversion Hx|].
    apply elem_of_cons in Hx as [->|Hx]; [|by apply IH].
    apply pick_spec in Hp as (_ & (_ & Hf & _) & _). by apply filters_spec in Hf.
  Qed.

  Lemma keys_range (p : Proof_) : (forall v, takes_part v p -> v < lenN vals) ->
    att_keys vals (indices p) = Some (keys_of vals (pr_bits p)).
  Proof.
    intros Hr. apply att_keys_spec. split; [done|]. unfold keys_of, indices.
    assert (forall v, v ∈ validator_indices (pr_bits p) -> v < lenN vals) as H.
    { intros v Hv. apply Hr. by apply validator_indices_spec. }
    induction (validator_indices (pr_bits p)) as [|i l IH]; cbn; [done|].
    destruct (vals !! N.to_nat i) as [x|] eqn:Hx; cbn.
    - f_equal. apply IH. intros v Hv. apply H. by right.
    - exfalso. apply lookup_ge_None in Hx. specialize (H i ltac:(left)). unfold lenN in H. lia.
  Qed.
  Lemma keys_ok_proof d p : sound_proof E vals d p -> proof_keys E vals p = Ok (keys_of vals (pr_bits p)).
  Proof.
    intros Hs. unfold proof_keys. rewrite (keys_range _ (sp_range _ _ _ _ Hs)).
    assert (forallb (e_key_ok E) (keys_of vals (pr_bits p)) = true) as ->; [|done].
    apply forallb_forall. intros k Hk. pose proof (sp_keys _ _ _ _ Hs) as H. rewrite Forall_forall in H.
    apply H. by apply elem_of_list_In.
  Qed.
  Lemma children_ok d (l : list (AggAtt * Proof_)) :
    (forall x, x ∈ l -> sound_proof E vals d x.2) ->
    children_of E vals l = Ok (map (fun p => (keys_of vals (pr_bits p), pr_bytes p)) (map snd l)).
  Proof.
    induction l as [|x l IH]; intros H; cbn [children_of map]; [done|].
    rewrite (keys_ok_proof d) by (apply H; left). cbn [rbind]. rewrite IH; [done|]. intros y Hy. apply H. by right.
  Qed.

  Lemma compact_group_ok d g :
    complete_prover E P ->
    (forall x, x ∈ g -> at_data x.1 = d /\ at_bits x.1 = pr_bits x.2 /\ sound_proof E vals d x.2) -> g <> [] ->
    exists e, compact_group E P vals d g = Ok e /\ sound_proof E vals d e.2.
  Proof.
    intros Hcp Hg Hne. destruct g as [|x [|y g]]; [done| |].
    - exists x. split; [done|]. apply Hg. left.
    - unfold compact_group.
      set (l := x :: y :: g) in *. set (bits := fold_left _ (y :: g) (at_bits x.1)).
      rewrite (children_ok d) by (intros z Hz; by apply Hg). cbn [rbind].
      pose proof (proj2 (proj2 (Hg x ltac:(left)))) as Hx.
      destruct (N.leb_spec two32 (ad_slot d)) as [Hbad|_]; [pose proof (sp_slot _ _ _ _ Hx); lia|].
      assert (is_union bits (map snd l)) as Hu.
      { intros v. unfold bits. rewrite fold_union_lookup. unfold covered_by. setoid_rewrite elem_of_map. split.
        - intros [H|(z & Hz & H)].
          + exists x.2. split; [exists x; split; [done|left]|]. destruct (Hg x ltac:(left)) as (_ & Hb & _). by rewrite Hb in H.
          + exists z.2. split; [exists z; split; [done|by right]|]. destruct (Hg z ltac:(by right)) as (_ & Hb & _). by rewrite Hb in H.
        - intros (q & (z & -> & Hz) & H). pose proof Hz as Hz'. apply elem_of_cons in Hz' as [->|Hz'].
          + left. destruct (Hg x ltac:(left)) as (_ & Hb & _). by rewrite Hb.
          + right. exists z. split; [done|]. destruct (Hg z Hz) as (_ & Hb & _). by rewrite Hb. }
      destruct (cp_aggregate _ _ Hcp vals (map snd l) bits (e_data E d) (ad_slot d)) as (bytes & Hagg & Hval).
      { cbn. lia. }
      { done. }
      { intros p Hp. apply elem_of_map in Hp as (z & -> & Hz). destruct (Hg z Hz) as (_ & _ & Hs).
        split; [apply (sp_range _ _ _ _ Hs)|apply (sp_valid _ _ _ _ Hs)]. }
      rewrite Hagg. eexists. split; [reflexivity|]. cbn [snd].
      assert (forall v, takes_part v (mkProof bits bytes) -> v < lenN vals) as Hr.
      { intros v Hv. apply Hu in Hv as (p & Hp & Hv). apply elem_of_map in Hp as (z & -> & Hz).
        destruct (Hg z Hz) as (_ & _ & Hs). by apply (sp_range _ _ _ _ Hs). }
      split; cbn [pr_bits pr_bytes]; [|done| |apply (sp_slot _ _ _ _ Hx)|done].
      + destruct (sp_some _ _ _ _ Hx) as [v Hv]. exists v. apply Hu. exists x.2. split; [|done].
        apply elem_of_map. exists x. split; [done|left].
      + apply Forall_forall. intros k Hk. unfold keys_of in Hk. apply elem_of_list_omap in Hk as (v & Hv & Hkv).
        apply validator_indices_spec in Hv. apply Hu in Hv as (p & Hp & Hv). apply elem_of_map in Hp as (z & -> & Hz).
        destruct (Hg z Hz) as (_ & _ & Hs). pose proof (sp_keys _ _ _ _ Hs) as Hks. rewrite Forall_forall in Hks.
        apply Hks. unfold keys_of. apply elem_of_list_omap. exists v. split; [|done]. by apply validator_indices_spec.
  Qed.

  Lemma compact_ok bl :
    complete_prover E P -> grouped bl ->
    (forall d g x, (d, g) ∈ bl -> x ∈ g -> at_bits x.1 = pr_bits x.2 /\ sound_proof E vals d x.2) ->
    exists r, compact_attestations E P (concat (map snd bl)) vals = Ok r.
  Proof.
    intros Hcp Hg Hs. unfold compact_attestations. rewrite data_order_grouped by done. rewrite map_length.
    destruct (Nat.eqb_spec (length bl) (length (concat (map snd bl)))) as [Hl|_]; [eauto|].
    assert (forall l, l ⊆ bl -> exists r, compact_loop E P vals (concat (map snd bl)) (map fst l) = Ok r) as H; [|by apply H].
    induction l as [|[d g] l IH]; intros Hsub; cbn [map fst compact_loop]; [eauto|].
    assert ((d, g) ∈ bl) as Hin by (apply Hsub; left).
    rewrite (group_grouped bl d g) by done.
    destruct (compact_group_ok d g Hcp) as (e & -> & _).
    { intros x Hx. split; [by eapply (gp_data _ Hg)|by eapply Hs]. }
    { by eapply (gp_some _ Hg). }
    cbn [rbind]. edestruct IH as [r ->]; [intros x Hx; apply Hsub; by right|]. cbn. eauto.
  Qed.

  Lemma chosen_sound pool x y :
    sound_pool E vals pool -> (x.1, x.2) ∈ pool -> y ∈ chosen iter x.2 ->
    at_bits y.1 = pr_bits y.2 /\ sound_proof E vals (pe_data x.2) y.2.
  Proof.
    intros Hsp Hx Hy. unfold chosen in Hy. apply elem_of_map in Hy as (p & -> & Hp). split; [done|].
    apply Hsp. exists x.1, x.2. split; [done|]. split; [done|]. by apply greedy_from in Hp.
  Qed.

  (** *** C37: building succeeds *)
  Lemma C37_builds_pf s bs slot proposer known pool pc :
    lenN vals <= VALIDATOR_REGISTRY_LIMIT ->
    chain_ s bs -> s_slot s < slot -> slot <= HISTORICAL_ROOTS_LIMIT ->
    is_proposer proposer slot (lenN vals) = true ->
    keyed E pool -> sound_pool E vals pool -> complete_prover E P ->
    exists r, build_block E P iter s slot proposer (hh (filled_header hs s)) known pool pc = Ok r.
  Proof.
    intros Hreg Hc Hlt Hlim Hprop Hk Hsp Hcp. set (parent := hh (filled_header hs s)).
    pose proof (hist_length s bs slot parent Hc Hlt) as Hhl.
    pose proof (cf_vals _ _ _ _ _ _ _ (chain_has_facts _ _ _ _ _ _ _ Hc)) as Hvs.
    assert (exists ps pj2, picked known (extended_hist s slot parent) (lenN (s_validators s)) pool (from_head_state s) [] ps pj2 /\
      select_attestations iter s slot parent known pool (pc_max pc) = Ok (concat (map snd (map (pick_block iter) ps))) /\
      N.of_nat (length ps) <= N.min (pc_max pc) MAX_ATTESTATIONS_DATA /\
      (N.of_nat (length ps) < N.min (pc_max pc) MAX_ATTESTATIONS_DATA ->
       pick_best_candidate pj2 (rev (map (fun x => x.1.1.1) ps)) known (extended_hist s slot parent) (lenN (s_validators s)) pool = None))
      as (ps & pj2 & Hps & Hsel & Hlen & Hstop).
    { unfold select_attestations. destruct pool as [|c pool].
      - exists [], (from_head_state s). split; [constructor|]. cbn. split; [done|]. split; [lia|done].
      - destruct (select_ok (N.to_nat (N.min (pc_max pc) MAX_ATTESTATIONS_DATA)) (from_head_state s) [] known
          (extended_hist s slot parent) (lenN (s_validators s)) (c :: pool)) as [l Hl]; [rewrite Hhl; lia|].
        rewrite Hl. apply select_loop_spec in Hl as (ps & pj2 & H1 & -> & H3 & H4). exists ps, pj2.
        split; [done|]. split; [done|]. split; [lia|]. rewrite app_nil_r in H4. intros Hlt2. apply H4. lia. }
    pose proof (picked_grouped E iter Hiter _ _ _ _ _ _ _ _ Hk Hps) as Hg.
    destruct (picked_spec _ _ _ _ _ _ _ _ Hps) as [Hin _].
    pose proof (picked_slots _ _ _ _ _ _ _ _ Hps) as Hslots.
    unfold build_block. rewrite Hsel. cbn [rbind].
    assert (exists r, (if pc_aggregate pc then compact_attestations E P (concat (map snd (map (pick_block iter) ps))) (s_validators s)
      else keep_best_proof_per_data (concat (map snd (map (pick_block iter) ps))) (build_running_votes s)) = Ok r) as [r Hr].
    { destruct (pc_aggregate pc); [|by apply keep_ok]. rewrite Hvs. apply compact_ok; [done|done|].
      intros d g y Hdg Hy. apply elem_of_map in Hdg as (x & [= -> ->] & Hx). destruct (Hin x Hx) as [Hx1 _].
      apply (chosen_sound pool (x.1.1.1, x.1.1.2)); done. }
    rewrite Hr. cbn [rbind].
    assert (built E P iter s slot parent known pool pc ps pj2 r) as Hbt.
    { split; [done|done| |done]. destruct (pc_aggregate pc).
      - apply compact_grouped in Hr; [|done]. by apply Forall2_fmap_l in Hr.
      - apply keep_grouped in Hr; [|done]. by apply Forall2_fmap_l in Hr. }
    destruct (built_shape E P iter Hiter _ _ _ _ _ _ _ _ _ Hk Hbt) as (H1 & H2 & H3 & H4).
    assert (lenN (map fst r) <= 8) as Hl8 by (unfold lenN in *; rewrite map_length; lia).
    destruct (N.ltb_spec 4096 (lenN (map fst r))); [lia|].
    destruct (stf_ok s bs slot proposer (map fst r)) as [post Hpost]; try done.
    - pose proof (distinct_le (map fst r)). unfold MAX_ATTESTATIONS_DATA. lia.
    - intros a Ha. apply elem_of_map in Ha as (e & -> & He).
      assert (packed pool pc e.1 e.2) as Hpk by (rewrite Forall_forall in H3; by apply H3).
      split; [apply (pa_some _ _ _ _ Hpk)|]. split.
      + intros v Hv. destruct (pa_union _ _ _ _ Hpk) as (qs & Hq & Hu). destruct (proj1 (Hu v) Hv) as (q & Hqin & Hv').
        by apply (sp_range _ _ _ _ (Hsp _ _ (Hq _ Hqin))).
      + assert (at_data e.1 ∈ map pick_data ps) as Hd.
        { rewrite <- H1. apply elem_of_map. exists e. done. }
        apply elem_of_map in Hd as (x & -> & Hx). specialize (Hslots x Hx). rewrite Hhl in Hslots. tauto.
    - fold parent in Hpost. rewrite Hpost. cbn [rbind]. eauto.
  Qed.
End Live.
