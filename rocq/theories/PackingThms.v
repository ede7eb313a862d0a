(** The votes in a proposed block (C62). *)
From Verif Require Export PackingProofs.
Local Open Scope N_scope.

Section Core.
  Context (E : Env) (P : Prover) (iter : AttestationData -> nat -> list nat -> list nat).
  Context (Hiter : forall d, an_order (iter d)) (gt : N) (vals : list Validator).
  Context (Hgood : good_hash (e_header E)) (Hreg : lenN vals <= VALIDATOR_REGISTRY_LIMIT).
  Notation hs := (e_state E).
  Notation hh := (e_header E).
  Notation hb := (e_body E).
  Notation chain_ := (chain hs hh hb gt vals).

  Lemma base_tracks s bs b s1 s2 :
    chain_ s bs -> process_slots hs s (b_slot b) = Ok s1 -> process_block_header hh hb s1 b = Ok s2 ->
    tracks (from_head_state s) s2.
  Proof.
    intros Hch H1 H2.
    pose proof (fun t => header_justified hs hh hb gt vals _ _ _ _ _ t Hch H1 H2) as Hj.
    destruct (Hj 0) as (_ & Htl & _ & HF).
    split; cbn [from_head_state pj_fin pj_slots pj_votes].
    - done.
    - intros t. by destruct (Hj t) as [-> _].
    - intros t r v _ _ _. rewrite Htl. apply running_tallied. by eapply chain_canonical.
  Qed.

  Lemma group_full pool r e vs x :
    keyed E pool -> (r, e) ∈ pool ->
    compact_group E P vs (pe_data e) (chosen iter e) = Ok x ->
    at_data x.1 = pe_data e /\ full_vote pool x.1.
  Proof.
    intros Hk Hin Hc. apply compact_group_shape in Hc as (Hd & _ & Hu).
    2:{ intros y Hy. unfold chosen in Hy. apply elem_of_map in Hy as (p & -> & _). done. }
    split; [done|]. intros v. unfold votes_in. rewrite (Hu v).
    assert (map snd (chosen iter e) = greedy_proofs (iter (pe_data e)) (pe_proofs e)) as ->.
    { unfold chosen. rewrite map_map. cbn. by rewrite map_id. }
    rewrite greedy_covered by apply Hiter. rewrite Hd. split.
    - intros (p & Hp & Hv). exists p. split; [|done]. by exists r, e.
    - intros (p & (r' & e' & Hin' & Hd' & Hp) & Hv). exists p. split; [|done].
      assert (e' = e) as <-; [|done]. by eapply keyed_unique.
  Qed.

  Lemma packing_core s bs slot vid known pool pc b proofs cps :
    chain_ s bs -> keyed E pool -> (forall d p v, pool_holds pool d p -> takes_part v p -> v < lenN vals) ->
    pc_aggregate pc = true ->
    build_block E P iter s slot vid (hh (filled_header hs s)) known pool pc = Ok (b, proofs, cps) ->
    exists s1 s2, process_slots hs s (b_slot b) = Ok s1 /\ process_block_header hh hb s1 b = Ok s2 /\
      (forall pre a post, b_atts b = pre ++ a :: post ->
         exists mid, process_attestations s2 pre = Ok mid /\ good_choice pool known mid (map at_data pre) a) /\
      (lenN (b_atts b) < N.min (pc_max pc) 8 ->
         exists mid, process_attestations s2 (b_atts b) = Ok mid /\ exhausted pool known mid (map at_data (b_atts b))).
  Proof.
    intros Hch Hk Hrange Hagg Hb.
    apply (build_parts E P iter Hiter) in Hb as (ps & pj2 & r & post & Hbt & -> & _ & Hpost & ->); [|done].
    destruct (built_shape E P iter Hiter _ _ _ _ _ _ _ _ _ Hk Hbt) as (Hdata & Hnd & _ & Hlen).
    destruct Hbt as [Hps _ Hred Hstop]. rewrite Hagg in Hred.
    pose proof (chain_has_facts _ _ _ _ _ _ _ Hch) as Hcf.
    rewrite (cf_vals _ _ _ _ _ _ _ Hcf) in Hps, Hred, Hstop.
    apply rbind_Ok in Hpost as (s1 & Hs1 & Hpost). unfold process_block in Hpost.
    apply rbind_Ok in Hpost as (s2 & Hs2 & Hpost). cbn [b_atts] in Hpost.
    set (b := mkBlock slot vid (hh (filled_header hs s)) (hs post) (map fst r)).
    assert (process_slots hs s (b_slot b) = Ok s1) as Hp1 by exact Hs1.
    assert (process_block_header hh hb s1 b = Ok s2) as Hp2 by exact Hs2.
    exists s1, s2. split; [exact Hp1|]. split; [exact Hp2|].
    pose proof (header_step _ _ _ _ _ _ _ _ _ _ Hcf Hp1 Hp2) as Hhf.
    assert (s_hist s2 = extended_hist s slot (hh (filled_header hs s))) as Hh.
    { rewrite (hf_hist _ _ _ _ _ _ _ _ _ Hhf). unfold extended_hist. rewrite <- (hf_parent _ _ _ _ _ _ _ _ _ Hhf). done. }
    pose proof (base_tracks _ _ _ _ _ Hch Hp1 Hp2) as Htr0.
    assert (Forall2 (fun (x : H256 * PayloadEntry * EntryScore * gset N) a => at_data a = pick_data x /\ full_vote pool a) ps (map fst r)) as Hall.
    { destruct (picked_spec _ _ _ _ _ _ _ _ Hps) as [Hin _].
      apply Forall2_fmap_r. apply Forall2_same_length_lookup. split; [by eapply Forall2_length|].
      intros i x e Hx He. pose proof (Forall2_lookup_lr _ _ _ _ _ _ Hred Hx He) as Hc. cbn beta in Hc.
      destruct (Hin x ltac:(by eapply elem_of_list_lookup_2)) as [Hx1 _].
      by eapply group_full. }
    assert (length ps = length r) as Hlr by (by eapply Forall2_length).
    assert (distinct_data ([] ++ map fst r) <= MAX_ATTESTATIONS_DATA) as Hdd.
    { cbn [app]. pose proof (distinct_le (map fst r)) as H. unfold lenN in *. rewrite map_length in H.
      change MAX_ATTESTATIONS_DATA with 8. lia. }
    destruct (run_good hs hh hb gt vals (proj1 Hgood) Hreg iter Hiter E pool Hk Hrange known s s1 s2 bs b Hch Hp1 Hp2
      _ _ _ _ _ _ [] [] s2 Hps Hall) as [Hall' (m2 & Hm2 & Htr2 & Hh2)]; try done.
    { pose proof (header_state_inv _ _ _ _ _ _ _ _ _ Hcf Hhf) as [Hinv2 Hcan2].
      apply process_nil; [split; [by eapply loop_inv_mono, Hinv2|done]|apply (hf_limit _ _ _ _ _ _ _ _ _ Hhf)|].
      by rewrite (hf_vals _ _ _ _ _ _ _ _ _ Hhf). }
    { intros r0 e0 _ H. by apply elem_of_nil in H. }
    { eauto. }
    cbn [app] in *. split; [exact Hall'|]. cbn [b_atts b].
    intros Hlt. exists m2. split; [exact Hm2|].
    assert (N.of_nat (length ps) < N.min (pc_max pc) MAX_ATTESTATIONS_DATA) as Hlt'.
    { unfold lenN in Hlt. rewrite map_length in Hlt. change MAX_ATTESTATIONS_DATA with 8. lia. }
    specialize (Hstop Hlt'). intros a' Hf Hkn Hn Hu.
    destruct (useful_candidate hs hh hb gt vals (proj1 Hgood) Hreg E pool Hk Hrange known s s1 s2 bs b Hch Hp1 Hp2
      m2 (map fst r) pj2 (rev (map (fun x => x.1.1.1) ps)) (map at_data (map fst r)) a' Hm2 Htr2) as (r0 & e0 & t & Hin & _ & _ & Hc & _); try done.
    { intros r0 e0 Hin Hr0. apply elem_of_list_In, in_rev, elem_of_list_In in Hr0. apply elem_of_map in Hr0 as (x & -> & Hx).
      destruct (picked_spec _ _ _ _ _ _ _ _ Hps) as [Hpin _]. destruct (Hpin x Hx) as [Hx1 _].
      assert (pe_data e0 = pick_data x) as ->.
      { unfold pick_data. f_equal. apply elem_of_list_lookup in Hin as [i Hi], Hx1 as [j Hj].
        assert (i = j) as <-; [|rewrite Hi in Hj; by injection Hj].
        eapply (NoDup_lookup (map fst pool)); [by apply (ky_once _ _ Hk)|by rewrite list_lookup_fmap, Hi|by rewrite list_lookup_fmap, Hj]. }
      rewrite map_map, Hdata. apply elem_of_map. by exists x. }
    unfold pick_best_candidate in Hstop. apply scan_None in Hstop as [_ Hstop].
    rewrite Hh2 in Hc. by eapply Hstop.
  Qed.
End Core.

Section Node.
  Context (E : Env) (P : Prover) (iter : AttestationData -> nat -> list nat -> list nat).
  Context (Hiter : forall d, an_order (iter d)) (gt : N) (vals : list Validator).
  Context (Hgood : good_hash (e_header E)) (Hreg : lenN vals <= VALIDATOR_REGISTRY_LIMIT) (Hinj : inj_data E).
  Notation hs := (e_state E).
  Notation hh := (e_header E).
  Notation hb := (e_body E).

  Lemma live_known n r :
    r ∈ map (fun k : N * H256 * H256 => k.1.2) (map_to_list (t_live (tab n))) <-> is_live n r.
  Proof.
    rewrite elem_of_map. split.
    - intros ([[slot r'] p] & -> & Hin). apply elem_of_map_to_list in Hin. exists slot. cbn. by rewrite Hin.
    - intros (slot & p & Hl). exists (slot, r, p). split; [done|]. by apply elem_of_map_to_list.
  Qed.

  Lemma packing_node n s slot vid pool pc b proofs cps :
    reachable_sound E gt vals n -> pool ≡ₚ map_to_list (bf_data (nd_known n)) -> pc_aggregate pc = true ->
    produce_block E P iter n slot vid pool pc = Ok (b, proofs, cps) ->
    read_state (tab n) (db_head (nd_db n)) = Ok (Some s) ->
    (forall pre a post, b_atts b = pre ++ a :: post ->
       exists mid, at_vote E s b pre mid /\ full_vote pool a /\ is_live n (cp_root (ad_head (at_data a))) /\
         (self_vote a \/ useful mid a) /\
         forall a', full_vote pool a' -> is_live n (cp_root (ad_head (at_data a'))) -> at_data a' ∉ map at_data pre -> useful mid a' ->
           (self_vote a -> ~ reaches_quorum mid a') /\ (~ self_vote a -> ~ better mid a' a)) /\
    (lenN (b_atts b) < N.min (pc_max pc) 8 ->
       exists mid, at_vote E s b (b_atts b) mid /\
         forall a', full_vote pool a' -> is_live n (cp_root (ad_head (at_data a'))) -> at_data a' ∉ map at_data (b_atts b) -> ~ useful mid a').
  Proof.
    intros Hrs Hperm Hagg Hb Hread0.
    pose proof (reachable_pool E gt vals Hgood Hreg Hinj n Hrs) as [_ Hsk].
    destruct (reachable_inv E gt vals Hgood Hreg n (reachable_of_sound _ _ _ _ Hrs)) as (A & As & w & Hn & _).
    destruct (di_head _ _ _ _ _ _ _ (proj1 Hn)) as [s' Hs].
    pose proof (w_read E gt vals _ _ _ _ _ _ (proj1 Hn) Hs) as Hread.
    unfold tab in Hread0. rewrite Hread in Hread0. apply Ok_inj in Hread0. injection Hread0 as ->.
    destruct (w_header E gt vals _ _ _ _ _ _ (proj1 Hn) Hs) as (Hhd & Hss & _).
    destruct (di_chain _ _ _ _ _ _ _ (proj1 Hn) _ _ Hs) as (raw & bs & Hc & Hraw).
    assert (keyed E pool) as Hkey.
    { destruct Hn as (_ & _ & Hpk & _). split.
      - rewrite Hperm. apply (NoDup_fst_map_to_list (bf_data (nd_known n))).
      - intros r e Hin. rewrite Hperm in Hin. apply elem_of_map_to_list in Hin. symmetry. by apply (po_key _ _ Hpk). }
    assert (forall d p v, pool_holds pool d p -> takes_part v p -> v < lenN vals) as Hrange.
    { intros d p v (r & e & Hin & <- & Hp). rewrite Hperm in Hin. apply elem_of_map_to_list in Hin.
      apply (sp_range _ _ _ _ (Hsk _ _ _ Hin Hp)). }
    assert (db_head (nd_db n) = hh (filled_header hs raw)) as Hroot.
    { rewrite <- (si_hash _ _ _ _ _ (di_st _ _ _ _ _ _ _ (proj1 Hn)) _ _ Hhd). by rewrite Hraw. }
    unfold produce_block, tab in Hb. rewrite Hread in Hb. cbn [expect rbind] in Hb.
    destruct (is_proposer _ _ _); [|done]. rewrite Hraw, build_seal, Hroot in Hb.
    destruct (packing_core E P iter Hiter gt vals Hgood Hreg raw bs slot vid _ pool pc b proofs cps Hc Hkey Hrange Hagg Hb)
      as (s1 & s2 & H1 & H2 & Hall & Hend).
    assert (forall pre mid, process_attestations s2 pre = Ok mid -> at_vote E s b pre mid) as Hat.
    { intros pre mid Hm. exists s1, s2. split; [|done]. rewrite Hraw, process_slots_seal. done. }
    split.
    - intros pre a post Heq. destruct (Hall _ _ _ Heq) as (mid & Hm & G1 & G2 & G3 & G4).
      exists mid. split; [by apply Hat|]. split; [done|]. split; [by apply live_known|]. split; [done|].
      intros a' Hf Hl. apply live_known in Hl. by apply G4.
    - intros Hlt. destruct (Hend Hlt) as (mid & Hm & Hex). exists mid. split; [by apply Hat|].
      intros a' Hf Hl. apply live_known in Hl. by apply Hex.
  Qed.

  Lemma at_vote_det s b pre m m' : at_vote E s b pre m -> at_vote E s b pre m' -> m = m'.
  Proof. intros (s1 & s2 & H1 & H2 & H3) (s1' & s2' & H1' & H2' & H3'). congruence. Qed.
End Node.

Lemma C62_counts_pf E P iter gt vals n s slot vid pool pc b proofs cps pre a post :
  (forall d, an_order (iter d)) ->
  good_hash (e_header E) -> lenN vals <= VALIDATOR_REGISTRY_LIMIT -> inj_data E ->
  reachable_sound E gt vals n -> pool ≡ₚ map_to_list (bf_data (nd_known n)) -> pc_aggregate pc = true ->
  produce_block E P iter n slot vid pool pc = Ok (b, proofs, cps) ->
  read_state (tab n) (db_head (nd_db n)) = Ok (Some s) ->
  b_atts b = pre ++ a :: post ->
  exists mid, at_vote E s b pre mid /\ full_vote pool a /\ (self_vote a \/ useful mid a).
Proof.
  intros H1 H2 H3 H4 H5 H6 H7 H8 H9 H10.
  destruct (packing_node E P iter H1 gt vals H2 H3 H4 n s slot vid pool pc b proofs cps H5 H6 H7 H8 H9) as [Hall _].
  destruct (Hall _ _ _ H10) as (mid & Ha & Hb & _ & Hc & _). by exists mid.
Qed.
Lemma C62_best_pf E P iter gt vals n s slot vid pool pc b proofs cps pre a post mid a' :
  (forall d, an_order (iter d)) ->
  good_hash (e_header E) -> lenN vals <= VALIDATOR_REGISTRY_LIMIT -> inj_data E ->
  reachable_sound E gt vals n -> pool ≡ₚ map_to_list (bf_data (nd_known n)) -> pc_aggregate pc = true ->
  produce_block E P iter n slot vid pool pc = Ok (b, proofs, cps) ->
  read_state (tab n) (db_head (nd_db n)) = Ok (Some s) ->
  b_atts b = pre ++ a :: post -> at_vote E s b pre mid ->
  full_vote pool a' -> is_live n (cp_root (ad_head (at_data a'))) -> at_data a' ∉ map at_data pre -> useful mid a' ->
  (self_vote a -> ~ reaches_quorum mid a') /\ (~ self_vote a -> ~ better mid a' a).
Proof.
  intros H1 H2 H3 H4 H5 H6 H7 H8 H9 H10 Hm.
  destruct (packing_node E P iter H1 gt vals H2 H3 H4 n s slot vid pool pc b proofs cps H5 H6 H7 H8 H9) as [Hall _].
  destruct (Hall _ _ _ H10) as (mid' & Ha & _ & _ & _ & Hc). pose proof (at_vote_det _ _ _ _ _ _ Hm Ha) as ->. apply Hc.
Qed.
Lemma C62_full_pf E P iter gt vals n s slot vid pool pc b proofs cps mid a' :
  (forall d, an_order (iter d)) ->
  good_hash (e_header E) -> lenN vals <= VALIDATOR_REGISTRY_LIMIT -> inj_data E ->
  reachable_sound E gt vals n -> pool ≡ₚ map_to_list (bf_data (nd_known n)) -> pc_aggregate pc = true ->
  produce_block E P iter n slot vid pool pc = Ok (b, proofs, cps) ->
  read_state (tab n) (db_head (nd_db n)) = Ok (Some s) ->
  lenN (b_atts b) < N.min (pc_max pc) 8 -> at_vote E s b (b_atts b) mid ->
  full_vote pool a' -> is_live n (cp_root (ad_head (at_data a'))) -> at_data a' ∉ map at_data (b_atts b) ->
  ~ useful mid a'.
Proof.
  intros H1 H2 H3 H4 H5 H6 H7 H8 H9 H10 Hm.
  destruct (packing_node E P iter H1 gt vals H2 H3 H4 n s slot vid pool pc b proofs cps H5 H6 H7 H8 H9) as [_ Hall].
  destruct (Hall H10) as (mid' & Ha & Hc). pose proof (at_vote_det _ _ _ _ _ _ Hm Ha) as ->. apply Hc.
Qed.
