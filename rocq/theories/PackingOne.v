(** Without aggregation at the proposer: which proof of a vote is kept (C62). *)
From Verif Require Export PackingThms.
Local Open Scope N_scope.
Notation Entry := (AggAtt * Proof_)%type (only parsing).
Notation flat bl := (concat (map snd bl)).

Definition key_le (x y : N * N) : Prop := x.1 < y.1 \/ (x.1 = y.1 /\ x.2 <= y.2).

Lemma first_best_max key e l y : y ∈ e :: l -> key_le (key y) (key (first_best key e l)).
Proof.
  revert e y. induction l as [|x l IH]; intros e y Hy; cbn [first_best].
  - apply elem_of_list_singleton in Hy as ->. right. done.
  - set (b := (_ || _)). assert (key_le (key e) (key (if b then x else e)) /\ key_le (key x) (key (if b then x else e))) as [He Hx].
    { unfold b, key_le. destruct (N.ltb_spec (key e).1 (key x).1); cbn [orb]; [lia|].
      destruct (N.eqb_spec (key e).1 (key x).1); cbn [andb]; [|lia].
      destruct (N.ltb_spec (key e).2 (key x).2); lia. }
    pose proof (IH (if b then x else e) (if b then x else e) ltac:(left)) as Hb.
    apply elem_of_cons in Hy as [->|Hy]; [unfold key_le in *; lia|].
    apply elem_of_cons in Hy as [->|Hy]; [unfold key_le in *; lia|].
    apply IH. by right.
Qed.

Definition claim (c : gmap H256 (gset N)) (x : Entry) : gmap H256 (gset N) :=
  let r := cp_root (ad_target (at_data x.1)) in <[r := default ∅ (c !! r) ∪ voters x.2]> c.
Lemma claims_spec pre c r v :
  v ∈ (default ∅ (fold_left claim pre c !! r) : gset N) <->
  v ∈ (default ∅ (c !! r) : gset N) \/ exists x, x ∈ pre /\ cp_root (ad_target (at_data x.1)) = r /\ takes_part v x.2.
Proof.
  revert c. induction pre as [|x pre IH]; intros c; cbn [fold_left].
  { split; [by left|]. intros [?|(x & Hx & _)]; [done|by inversion Hx]. }
  rewrite IH. unfold claim. destruct (decide (cp_root (ad_target (at_data x.1)) = r)) as [<-|Hne].
  - rewrite lookup_insert. cbn [from_option id]. rewrite elem_of_union, voters_spec. split.
    + intros [[?|?]|(y & Hy & Hr & Hv)]; [by left|right; exists x; split; [left|done]|right; exists y; split; [by right|done]].
    + intros [?|(y & Hy & Hr & Hv)]; [by left; left|]. apply elem_of_cons in Hy as [->|Hy]; [by left; right|].
      right. by exists y.
  - rewrite lookup_insert_ne by done. split.
    + intros [?|(y & Hy & Hr & Hv)]; [by left|]. right. exists y. split; [by right|done].
    + intros [?|(y & Hy & Hr & Hv)]; [by left|]. apply elem_of_cons in Hy as [->|Hy]; [done|]. right. by exists y.
Qed.

Definition best_of (running claimed : gmap H256 (gset N)) (d : AttestationData) (g : list Entry) (x : Entry) : Prop :=
  let key (e : Entry) := (marginal (default ∅ (running !! cp_root (ad_target d))) (default ∅ (claimed !! cp_root (ad_target d))) e.2,
                          count_true (at_bits e.1)) in
  x ∈ g /\ forall y, y ∈ g -> key_le (key y) (key x).

Lemma keep_loop_best running claimed bl bl0 r :
  grouped bl0 -> bl ⊆ bl0 -> keep_loop running claimed (flat bl0) (map fst bl) = Ok r ->
  forall pre x post, r = pre ++ x :: post ->
    exists d g, bl !! length pre = Some (d, g) /\ best_of running (fold_left claim pre claimed) d g x.
Proof.
  intros Hg. revert claimed r. induction bl as [|[d g] bl IH]; intros claimed r Hsub H pre x post Hr; cbn [map fst keep_loop] in H.
  { injection H as <-. by destruct pre. }
  rewrite (group_grouped bl0 d g) in H by (done || apply Hsub; left).
  destruct g as [|e es]; [done|]. apply rbind_Ok in H as (r' & Hr' & [= <-]).
  set (key := fun e : Entry => _) in *. set (best := first_best key e es) in *.
  assert (best ∈ e :: es) as Hb by apply first_best_in.
  destruct pre as [|y pre]; cbn [app length] in Hr |- *.
  - injection Hr as <- <-. exists d, (e :: es). split; [done|]. split; [done|]. intros y Hy. exact (first_best_max key e es y Hy).
  - injection Hr as <- ->. cbn [fold_left]. edestruct IH as (d' & g' & H1 & H2); [|exact Hr'|done|].
    { intros z Hz. apply Hsub. by right. }
    exists d', g'. split; [done|].
    assert (claim claimed best = <[cp_root (ad_target d) := default ∅ (claimed !! cp_root (ad_target d)) ∪ voters best.2]> claimed) as ->; [|done].
    unfold claim. rewrite (gp_data _ Hg d (e :: es) best); [done|apply Hsub; left|done].
Qed.

Lemma keep_best running bl r :
  grouped bl -> keep_best_proof_per_data (flat bl) running = Ok r ->
  forall pre x post, r = pre ++ x :: post ->
    exists d g, bl !! length pre = Some (d, g) /\ best_of running (fold_left claim pre ∅) d g x.
Proof.
  intros Hg. unfold keep_best_proof_per_data. rewrite data_order_grouped by done. rewrite map_length.
  destruct (Nat.eqb_spec (length bl) (length (flat bl))) as [Hl|_]; [|by apply keep_loop_best].
  intros [= <-] pre x post Hr. pose proof (flat_length bl Hg Hl) as Hs. clear Hl Hg.
  assert (exists d, bl !! length pre = Some (d, [x])) as [d Hd].
  { revert pre Hr. induction bl as [|[d g] bl IH]; intros pre Hr; cbn [map concat snd] in Hr; [by destruct pre|].
    destruct (Hs d g ltac:(left)) as [y ->]. cbn [app] in Hr. destruct pre as [|z pre]; cbn in Hr.
    - injection Hr as -> _. by exists d.
    - injection Hr as _ Hr. cbn. apply IH; [|done]. intros d' g' Hin. eapply Hs. by right. }
  exists d, [x]. split; [done|]. split; [left|]. intros y Hy. apply elem_of_list_singleton in Hy as ->. right. done.
Qed.

Lemma marginal_counts s pre d p (claimed : gmap H256 (gset N)) :
  canonical s ->
  (forall v, v ∈ (default ∅ (claimed !! cp_root (ad_target d)) : gset N) <->
     exists x : Entry, x ∈ pre /\ cp_root (ad_target (at_data x.1)) = cp_root (ad_target d) /\ takes_part v x.2) ->
  (forall x : Entry, x ∈ pre -> at_bits x.1 = pr_bits x.2) ->
  counts (marginal (default ∅ (build_running_votes s !! cp_root (ad_target d))) (default ∅ (claimed !! cp_root (ad_target d))) p)
    (fresh_voter s (map fst pre) d p).
Proof.
  intros Hc Hcl Hbits. unfold marginal. eexists. split; [|split; [|reflexivity]].
  - apply NoDup_ListNoDup, List.NoDup_filter, NoDup_ListNoDup, validator_indices_NoDup.
  - intros v. rewrite elem_of_list_In, filter_In, <- elem_of_list_In, indices_spec, andb_true_iff, !negb_true_iff, !bool_decide_eq_false.
    rewrite (running_tallied s _ v Hc), (Hcl v). unfold fresh_voter. split.
    + intros (H1 & H2 & H3). split; [done|]. split; [done|]. intros a Ha Hr Hv. apply elem_of_map in Ha as (x & -> & Hx).
      apply H3. exists x. split; [done|]. split; [done|]. unfold takes_part, votes_in in *. by rewrite <- (Hbits x Hx).
    + intros (H1 & H2 & H3). split; [done|]. split; [done|]. intros (x & Hx & Hr & Hv).
      eapply (H3 x.1); [apply elem_of_map; by exists x|done|]. unfold takes_part, votes_in in *. by rewrite (Hbits x Hx).
Qed.
Lemma count_true_counts p : counts (count_true (pr_bits p)) (fun v => takes_part v p).
Proof.
  exists (validator_indices (pr_bits p)). split; [apply validator_indices_NoDup|].
  split; [intros v; apply validator_indices_spec|apply validator_indices_length].
Qed.

Section One.
  Context (E : Env) (P : Prover) (iter : AttestationData -> nat -> list nat -> list nat).
  Context (Hiter : forall d, an_order (iter d)).

  Lemma one_core s slot vid parent known pool pc b proofs cps pre a post p :
    canonical s -> keyed E pool -> pc_aggregate pc = false ->
    build_block E P iter s slot vid parent known pool pc = Ok (b, proofs, cps) ->
    b_atts b = pre ++ a :: post -> proofs !! length pre = Some p ->
    exists r e, (r, e) ∈ pool /\ pe_data e = at_data a /\ at_bits a = pr_bits p /\
      p ∈ greedy_proofs (iter (at_data a)) (pe_proofs e) /\
      forall q n m, q ∈ greedy_proofs (iter (at_data a)) (pe_proofs e) ->
        counts n (fresh_voter s pre (at_data a) q) -> counts m (fresh_voter s pre (at_data a) p) ->
        n <= m /\ (n = m -> forall j k, counts j (fun v => takes_part v q) -> counts k (fun v => takes_part v p) -> j <= k).
  Proof.
    intros Hcan Hk Hagg Hb Hatts Hp. unfold build_block in Hb. rewrite Hagg in Hb.
    apply rbind_Ok in Hb as (l & Hl & Hb). apply rbind_Ok in Hb as (r & Hr & Hb).
    destruct (4096 <? _); [done|]. apply rbind_Ok in Hb as (pst & _ & Hb). apply Ok_inj in Hb. injection Hb as <- <- _.
    cbn [b_atts] in Hatts.
    assert (exists ps pj2, picked known (extended_hist s slot parent) (lenN (s_validators s)) pool (from_head_state s) [] ps pj2 /\
      l = flat (map (pick_block iter) ps)) as (ps & pj2 & Hps & ->).
    { unfold select_attestations in Hl. destruct pool as [|c pool].
      - apply Ok_inj in Hl as <-. exists [], (from_head_state s). split; [constructor|done].
      - apply select_loop_spec in Hl as (ps & pj2 & H1 & -> & _). by exists ps, pj2. }
    pose proof (picked_grouped E iter Hiter _ _ _ _ _ _ _ _ Hk Hps) as Hg.
    destruct (picked_spec _ _ _ _ _ _ _ _ Hps) as [Hin _].
    assert (exists rpre x rpost, r = rpre ++ x :: rpost /\ pre = map fst rpre /\ a = x.1 /\ p = x.2) as (rpre & x & rpost & -> & -> & -> & ->).
    { assert (map fst r !! length pre = Some a) as Hx by (rewrite Hatts; by apply list_lookup_middle).
      rewrite list_lookup_fmap in Hx. destruct (r !! length pre) as [x|] eqn:Hrx; [|done]. cbn in Hx. injection Hx as <-.
      rewrite list_lookup_fmap, Hrx in Hp. cbn in Hp. injection Hp as <-.
      exists (take (length pre) r), x, (drop (S (length pre)) r). split; [by rewrite take_drop_middle|].
      split; [|done]. rewrite <- firstn_map, Hatts. symmetry. apply take_app. }
    pose proof (keep_grouped _ _ _ Hg Hr) as Hall.
    destruct (keep_best _ _ _ Hg Hr rpre x rpost eq_refl) as (d & g & Hd & Hx & Hbest).
    rewrite list_lookup_fmap in Hd. destruct (ps !! length rpre) as [y|] eqn:Hy; [|done]. cbn in Hd.
    unfold pick_block in Hd. injection Hd as <- <-.
    destruct (Hin y ltac:(by eapply elem_of_list_lookup_2)) as [Hy1 _].
    unfold chosen in Hx. apply elem_of_map in Hx as (p & -> & Hp'). cbn [fst snd at_data at_bits] in *.
    exists y.1.1.1, y.1.1.2. split; [done|]. split; [done|]. split; [done|]. split; [done|].
    intros q n m Hq Hn Hm.
    assert (forall z : Entry, z ∈ rpre -> at_bits z.1 = pr_bits z.2) as Hbits.
    { intros z Hz. apply elem_of_list_lookup in Hz as [i Hi].
      assert (i < length rpre)%nat as Hlt by (by eapply lookup_lt_Some).
      destruct (Forall2_lookup_r _ _ _ i z Hall) as (w & Hw & Hzw); [by rewrite lookup_app_l|].
      rewrite list_lookup_fmap in Hw. destruct (ps !! i) as [u|]; [|done]. cbn in Hw. injection Hw as <-.
      unfold pick_block, chosen in Hzw. apply elem_of_map in Hzw as (p' & -> & _). done. }
    assert (forall v, v ∈ (default ∅ (fold_left claim rpre ∅ !! cp_root (ad_target (pe_data y.1.1.2))) : gset N) <->
      exists x : Entry, x ∈ rpre /\ cp_root (ad_target (at_data x.1)) = cp_root (ad_target (pe_data y.1.1.2)) /\ takes_part v x.2) as Hcl.
    { intros v. rewrite claims_spec, lookup_empty. cbn. split; [|by right]. intros [H|H]; [by apply elem_of_empty in H|done]. }
    pose proof (Hbest (mkAtt (pr_bits q) (pe_data y.1.1.2), q)) as Hle. cbn [fst snd at_bits] in Hle.
    unfold key_le in Hle. cbn [fst snd] in Hle. unfold pick_data in Hle.
    rewrite <- (counts_unique _ _ _ Hn (marginal_counts s rpre _ q _ Hcan Hcl Hbits)) in Hle.
    rewrite <- (counts_unique _ _ _ Hm (marginal_counts s rpre _ p _ Hcan Hcl Hbits)) in Hle.
    destruct Hle as [Hle|[Hle1 Hle2]].
    { unfold chosen. apply elem_of_map. by exists q. }
    - split; [lia|]. lia.
    - split; [lia|]. intros _ j k Hj Hk'.
      rewrite (counts_unique _ _ _ Hj (count_true_counts q)), (counts_unique _ _ _ Hk' (count_true_counts p)). done.
  Qed.
End One.

Lemma C62_one_proof_pf E P iter gt vals n s slot vid pool pc b proofs cps pre a post p :
  (forall d, an_order (iter d)) ->
  good_hash (e_header E) -> lenN vals <= VALIDATOR_REGISTRY_LIMIT ->
  reachable_sound E gt vals n -> pool ≡ₚ map_to_list (bf_data (nd_known n)) -> pc_aggregate pc = false ->
  produce_block E P iter n slot vid pool pc = Ok (b, proofs, cps) ->
  read_state (tab n) (db_head (nd_db n)) = Ok (Some s) ->
  b_atts b = pre ++ a :: post -> proofs !! length pre = Some p ->
  exists r e, (r, e) ∈ pool /\ pe_data e = at_data a /\ at_bits a = pr_bits p /\
    p ∈ greedy_proofs (iter (at_data a)) (pe_proofs e) /\
    forall q n m, q ∈ greedy_proofs (iter (at_data a)) (pe_proofs e) ->
      counts n (fresh_voter s pre (at_data a) q) -> counts m (fresh_voter s pre (at_data a) p) ->
      n <= m /\ (n = m -> forall j k, counts j (fun v => takes_part v q) -> counts k (fun v => takes_part v p) -> j <= k).
Proof.
  intros Hiter Hgood Hreg Hrs Hperm Hagg Hb Hread0.
  destruct (reachable_inv E gt vals Hgood Hreg n (reachable_of_sound _ _ _ _ Hrs)) as (A & As & w & Hn & _).
  destruct (di_head _ _ _ _ _ _ _ (proj1 Hn)) as [s' Hs].
  pose proof (w_read E gt vals _ _ _ _ _ _ (proj1 Hn) Hs) as Hread.
  unfold tab in Hread0. rewrite Hread in Hread0. apply Ok_inj in Hread0. injection Hread0 as ->.
  destruct (di_chain _ _ _ _ _ _ _ (proj1 Hn) _ _ Hs) as (raw & bs & Hc & Hraw).
  assert (keyed E pool) as Hkey.
  { destruct Hn as (_ & _ & Hpk & _). split.
    - rewrite Hperm. apply (NoDup_fst_map_to_list (bf_data (nd_known n))).
    - intros r e Hin. rewrite Hperm in Hin. apply elem_of_map_to_list in Hin. symmetry. by apply (po_key _ _ Hpk). }
  assert (canonical s) as Hcan.
  { rewrite Hraw. apply chain_canonical in Hc. destruct Hc as [C1 C2]. split; [exact C1|exact C2]. }
  unfold produce_block, tab in Hb. rewrite Hread in Hb. cbn [expect rbind] in Hb.
  destruct (is_proposer _ _ _); [|done].
  by eapply (one_core E P iter Hiter).
Qed.
