(** Built blocks: shape, acceptance, and when building succeeds. *)
From Verif Require Export BuilderSelect NodeProofs STFAtt.

Lemma fold_union_lookup (es : list (AggAtt * Proof_)) acc i :
  fold_left (fun acc x => union_bits acc (at_bits x.1)) es acc !! i = Some true <->
  acc !! i = Some true \/ exists x, x ∈ es /\ at_bits x.1 !! i = Some true.
Proof.
  revert acc. induction es as [|e es IH]; intros acc; cbn [fold_left].
  - split; [by left|]. intros [?|(x & Hx & _)]; [done|by inversion Hx].
  - rewrite IH, union_bits_lookup. setoid_rewrite elem_of_cons. naive_solver.
Qed.

Lemma grouped_unique bl d g g' : grouped bl -> (d, g) ∈ bl -> (d, g') ∈ bl -> g = g'.
Proof.
  intros Hg H1 H2. rewrite <- (group_grouped _ _ _ Hg H1). by apply group_grouped.
Qed.

Lemma keyed_unique E pool r e r' e' :
  keyed E pool -> (r, e) ∈ pool -> (r', e') ∈ pool -> pe_data e = pe_data e' -> e = e'.
Proof.
  intros Hk H1 H2 Hd. pose proof (ky_root _ _ Hk _ _ H1) as Hr. pose proof (ky_root _ _ Hk _ _ H2) as Hr'.
  apply elem_of_list_lookup in H1 as [i Hi], H2 as [j Hj].
  assert (i = j) as <-; [|congruence].
  eapply (NoDup_lookup (map fst pool)); [by apply (ky_once _ _ Hk)|by rewrite list_lookup_fmap, Hi|].
  rewrite list_lookup_fmap, Hj. cbn. congruence.
Qed.

Section Shape.
  Context (E : Env) (P : Prover) (iter : AttestationData -> nat -> list nat -> list nat).
  Context (Hiter : forall d, an_order (iter d)).

  Lemma compact_group_shape vals d g e :
    compact_group E P vals d g = Ok e ->
    (forall x, x ∈ g -> at_data x.1 = d /\ at_bits x.1 = pr_bits x.2) ->
    at_data e.1 = d /\ at_bits e.1 = pr_bits e.2 /\ is_union (at_bits e.1) (map snd g).
  Proof.
    intros H Hg. unfold compact_group in H.
    assert (forall x, x ∈ g -> forall v, at_bits x.1 !! N.to_nat v = Some true <-> takes_part v x.2) as Htp.
    { intros x Hx v. destruct (Hg x Hx) as [_ ->]. done. }
    destruct g as [|x [|y g]]; [done| |].
    - injection H as <-. destruct (Hg x ltac:(left)) as [H1 H2]. split_and!; try done.
      intros v. unfold covered_by. cbn. setoid_rewrite elem_of_list_singleton.
      rewrite (Htp x ltac:(left)). naive_solver.
    - apply rbind_Ok in H as (cs & _ & H). destruct (_ <=? _); [done|].
      destruct (pv_aggregate _ _ _ _) as [bytes|]; [|done]. apply Ok_inj in H as <-.
      cbn [fst snd at_data at_bits pr_bits]. split; [done|]. split; [done|].
      intros v. rewrite fold_union_lookup. unfold covered_by.
      setoid_rewrite elem_of_map. split.
      + intros [H|(z & Hz & H)].
        * exists x.2. split; [exists x; split; [done|left]|]. apply Htp; [left|done].
        * exists z.2. split; [exists z; split; [done|by right]|]. apply Htp; [by right|done].
      + intros (q & (z & -> & Hz) & H). apply (Htp z Hz) in H.
        apply elem_of_cons in Hz as [->|Hz]; [by left|]. right. eauto.
  Qed.

  (** The parts of a successful build. *)
  Record built (s : State) (slot : N) (parent : H256) (known : list H256) (pool : list (H256 * PayloadEntry))
      (pc : ProposerConfig) (ps : list (H256 * PayloadEntry * EntryScore * gset N)) (pj2 : Projected)
      (r : list (AggAtt * Proof_)) : Prop := {
    bd_picked : picked known (extended_hist s slot parent) (lenN (s_validators s)) pool (from_head_state s) [] ps pj2;
    bd_rounds : N.of_nat (length ps) <= N.min (pc_max pc) MAX_ATTESTATIONS_DATA;
    bd_reduced : if pc_aggregate pc
      then Forall2 (fun x e => compact_group E P (s_validators s) (pick_data x) (chosen iter x.1.1.2) = Ok e) ps r
      else Forall2 (fun x e => e ∈ chosen iter x.1.1.2) ps r;
    bd_stop : N.of_nat (length ps) < N.min (pc_max pc) MAX_ATTESTATIONS_DATA ->
      pick_best_candidate pj2 (rev (map (fun x => x.1.1.1) ps)) known (extended_hist s slot parent)
        (lenN (s_validators s)) pool = None }.

  Lemma build_parts s slot proposer parent known pool pc b proofs cps :
    keyed E pool ->
    build_block E P iter s slot proposer parent known pool pc = Ok (b, proofs, cps) ->
    exists ps pj2 r post, built s slot parent known pool pc ps pj2 r /\
      proofs = map snd r /\ cps = (s_justified post, s_finalized post) /\
      (let! s1 := process_slots (e_state E) s slot in
       process_block (e_header E) (e_body E) s1 (mkBlock slot proposer parent ZERO (map fst r))) = Ok post /\
      b = mkBlock slot proposer parent (e_state E post) (map fst r).
  Proof.
    intros Hk H. unfold build_block in H.
    apply rbind_Ok in H as (l & Hl & H). apply rbind_Ok in H as (r & Hr & H).
    destruct (4096 <? _); [done|]. apply rbind_Ok in H as (post & Hp & H).
    assert (exists ps pj2, picked known (extended_hist s slot parent) (lenN (s_validators s)) pool (from_head_state s) [] ps pj2 /\
      l = concat (map snd (map (pick_block iter) ps)) /\ N.of_nat (length ps) <= N.min (pc_max pc) MAX_ATTESTATIONS_DATA /\
      (N.of_nat (length ps) < N.min (pc_max pc) MAX_ATTESTATIONS_DATA ->
       pick_best_candidate pj2 (rev (map (fun x => x.1.1.1) ps)) known (extended_hist s slot parent) (lenN (s_validators s)) pool = None))
      as (ps & pj2 & H1 & -> & H3 & H4).
    { unfold select_attestations in Hl. destruct pool as [|c pool].
      - apply Ok_inj in Hl as <-. exists [], (from_head_state s). split; [constructor|]. cbn. split; [done|]. split; [lia|done].
      - apply select_loop_spec in Hl as (ps & pj2 & H1 & -> & H3 & H4). exists ps, pj2. split; [done|]. split; [done|].
        split; [lia|]. rewrite app_nil_r in H4. intros Hlt. apply H4. lia. }
    pose proof (picked_grouped E iter Hiter _ _ _ _ _ _ _ _ Hk H1) as Hg.
    exists ps, pj2, r, post. apply Ok_inj in H. injection H as <- <- <-. split; [|split; [done|]; split; [done|]; split; [|done]].
    - split; [done|done| |done]. destruct (pc_aggregate pc).
      + apply compact_grouped in Hr; [|done]. by apply Forall2_fmap_l in Hr.
      + apply keep_grouped in Hr; [|done]. by apply Forall2_fmap_l in Hr.
    - destruct (let! s1 := process_slots (e_state E) s slot in _) as [x|e|]; [by apply Ok_inj in Hp as <-|done|done].
  Qed.

  Lemma built_shape s slot parent known pool pc ps pj2 r :
    keyed E pool -> built s slot parent known pool pc ps pj2 r ->
    map (fun e => at_data e.1) r = map pick_data ps /\ NoDup (map pick_data ps) /\
    Forall (fun e => packed pool pc e.1 e.2) r /\
    lenN r <= N.min (pc_max pc) 8.
  Proof.
    intros Hk [Hps Hlen Hr _].
    pose proof (picked_grouped E iter Hiter _ _ _ _ _ _ _ _ Hk Hps) as Hg.
    destruct (picked_spec _ _ _ _ _ _ _ _ Hps) as [Hin _].
    assert (Forall2 (fun x e => at_data e.1 = pick_data x /\ packed pool pc e.1 e.2) ps r) as Hall.
    { assert (forall x, x ∈ ps -> (forall v, covered_by (greedy_proofs (iter (pick_data x)) (pe_proofs x.1.1.2)) v <-> covered_by (pe_proofs x.1.1.2) v)) as Hgc.
      { intros x _ v. apply greedy_covered, Hiter. }
      assert (forall x p, x ∈ ps -> p ∈ pe_proofs x.1.1.2 -> pool_holds pool (pick_data x) p) as Hhold.
      { intros x p Hx Hp. destruct (Hin x Hx) as [H1 _]. exists x.1.1.1, x.1.1.2. done. }
      destruct (pc_aggregate pc) eqn:Hpc.
      - apply Forall2_same_length_lookup. pose proof (Forall2_length _ _ _ Hr) as Hl. split; [done|].
        intros i x e Hx He. pose proof (Forall2_lookup_lr _ _ _ _ _ _ Hr Hx He) as Hc. cbn in Hc.
        assert (x ∈ ps) as Hxin by (by eapply elem_of_list_lookup_2).
        pose proof Hc as Hc0. apply compact_group_shape in Hc as (H1 & H2 & H3).
        2:{ intros y Hy. unfold chosen in Hy. apply elem_of_map in Hy as (p & -> & _). done. }
        split; [done|].
        assert (map snd (chosen iter x.1.1.2) = greedy_proofs (iter (pick_data x)) (pe_proofs x.1.1.2)) as Hch.
        { unfold chosen. rewrite map_map. cbn. apply map_id. }
        rewrite Hch in H3. split.
        + done.
        + assert (exists d g, (d, g) = pick_block iter x /\ g <> []) as (d & g & Hdg & Hne).
          { exists (pick_data x), (chosen iter x.1.1.2). split; [done|]. eapply (gp_some _ Hg). apply elem_of_map. exists x. done. }
          injection Hdg as -> ->.
          assert (exists v, covered_by (greedy_proofs (iter (pick_data x)) (pe_proofs x.1.1.2)) v) as [v Hv].
          { rewrite <- Hch. destruct (chosen iter x.1.1.2) as [|y l] eqn:Hcc; [done|].
            destruct (C38_greedy_pf (iter (pick_data x)) (pe_proofs x.1.1.2) (Hiter _)) as (_ & Hadd & _ & _).
            rewrite <- Hch in Hadd. cbn [map] in Hadd. destruct (Hadd 0%nat y.2 eq_refl) as [v [Hv _]].
            exists v. exists y.2. split; [left|done]. }
          exists v. by apply H3.
        + exists (greedy_proofs (iter (pick_data x)) (pe_proofs x.1.1.2)). split; [|done].
          intros q Hq. rewrite H1. apply Hhold; [done|]. by apply greedy_from in Hq.
        + intros _ q v (rr & e' & Hq1 & Hq2 & Hq3) Hv. apply H3. apply Hgc; [done|]. exists q. split; [|done].
          rewrite H1 in Hq2. destruct (Hin x Hxin) as [Hx1 _].
          assert (e' = x.1.1.2) as <-; [|done]. eapply keyed_unique; [done|done|done|]. done.
        + congruence.
      - apply Forall2_same_length_lookup. pose proof (Forall2_length _ _ _ Hr) as Hl. split; [done|].
        intros i x e Hx He. pose proof (Forall2_lookup_lr _ _ _ _ _ _ Hr Hx He) as Hc. cbn in Hc.
        assert (x ∈ ps) as Hxin by (by eapply elem_of_list_lookup_2).
        unfold chosen in Hc. apply elem_of_map in Hc as (p & -> & Hp). cbn [fst snd at_data at_bits].
        split; [done|]. split; cbn [at_data at_bits].
        + done.
        + apply elem_of_list_lookup in Hp as [k Hk'].
          destruct (C38_greedy_pf (iter (pick_data x)) (pe_proofs x.1.1.2) (Hiter _)) as (_ & Hadd & _ & _).
          destruct (Hadd k p Hk') as [v [Hv _]]. exists v. done.
        + exists [p]. split.
          * intros q Hq. apply elem_of_list_singleton in Hq as ->. apply Hhold; [done|]. by apply greedy_from in Hp.
          * intros v. unfold covered_by. setoid_rewrite elem_of_list_singleton. unfold takes_part. naive_solver.
        + congruence.
        + intros _. apply Hhold; [done|]. by apply greedy_from in Hp. }
    split_and!.
    - clear -Hall. induction Hall as [|x e ps r [H _] _ IH]; cbn; [done|]. by f_equal.
    - pose proof (gp_once _ Hg) as Hnd. rewrite map_map in Hnd. done.
    - clear -Hall. induction Hall as [|x e ps r [_ H] _ IH]; by constructor.
    - unfold lenN. rewrite <- (Forall2_length _ _ _ Hall). exact Hlen.
  Qed.

  Lemma C37_shape_pf s slot proposer parent known pool pc b proofs cps :
    keyed E pool ->
    build_block E P iter s slot proposer parent known pool pc = Ok (b, proofs, cps) ->
    b_slot b = slot /\ b_proposer b = proposer /\ b_parent b = parent /\
    lenN (b_atts b) <= N.min (pc_max pc) 8 /\ NoDup (map at_data (b_atts b)) /\
    Forall2 (packed pool pc) (b_atts b) proofs /\
    exists post, state_transition (e_state E) (e_header E) (e_body E) s b = Ok post /\
      cps = (s_justified post, s_finalized post).
  Proof.
    intros Hk H. apply build_parts in H as (ps & pj2 & r & post & Hb & -> & -> & Hst & ->); [|done].
    destruct (built_shape _ _ _ _ _ _ _ _ _ Hk Hb) as (H1 & H2 & H3 & H4).
    cbn [b_slot b_proposer b_parent b_atts]. split_and!; try done.
    - unfold lenN in *. by rewrite map_length.
    - rewrite map_map, H1. done.
    - clear -H3. induction H3 as [|e r H _ IH]; cbn; by constructor.
    - exists post. split; [|done]. unfold state_transition. cbn [b_slot b_state_root].
      apply rbind_Ok in Hst as (s1 & -> & Hpb). cbn [rbind]. 
      assert (process_block (e_header E) (e_body E) s1 (mkBlock slot proposer parent (e_state E post) (map fst r)) = Ok post) as ->.
      { rewrite <- Hpb. done. }
      cbn [rbind]. by rewrite N.eqb_refl.
  Qed.
End Shape.
