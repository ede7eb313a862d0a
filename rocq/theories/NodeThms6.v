(** What accepting the pending votes and updating the safe target do. *)
From Verif Require Export NodeThms5.

Section Duties.
  Context (E : Env).

  Lemma promote_votes f v :
    best_of (e_data E) (fun d => fc_known f !! v = Some d \/ fc_new f !! v = Some d)
      (fc_known (promote (e_data E) f) !! v).
  Proof.
    unfold promote, promote_with. cbn [fc_known].
    eapply best_of_ext; [|apply (promote_best _ (fun d => fc_known f !! v = Some d))].
    - intros d. cbn beta. by rewrite elem_of_map_to_list.
    - destruct (fc_known f !! v) as [d|]; cbn [best_of]; [|by intros d].
      split; [done|]. intros d' [= ->]. apply vote_le_refl.
  Qed.

  Lemma push_batch_run b l b' :
    payload_push_batch (e_data E) b l = Ok b' ->
    exists bs, pool_run (e_data E) b (map (fun x => Push x.1 x.2) l) bs b'.
  Proof.
    revert b. induction l as [|[d p] l IH]; intros b H; cbn [payload_push_batch map] in *.
    - injection H as <-. eexists. constructor.
    - apply rbind_Ok in H as (b1 & H1 & H2). destruct (IH _ H2) as [bs Hbs].
      exists (b1 :: bs). by econstructor.
  Qed.

  Lemma prune_new f cap : payload_prune f (buf_new cap) = Ok (buf_new cap, 0).
  Proof.
    unfold payload_prune, buf_prune, buf_new. cbn [bf_data bf_order bf_cap bf_total].
    rewrite !map_filter_empty, size_sum_empty, map_size_empty. done.
  Qed.

  Lemma C35_accept_pf gt vals n n' :
    good_hash (e_header E) -> lenN vals <= VALIDATOR_REGISTRY_LIMIT ->
    reachable E gt vals n -> accept_new_attestations E n = Ok n' ->
    (forall v d, fc_known (nd_votes n') !! v = Some d ->
       (fc_known (nd_votes n) !! v = Some d \/ fc_new (nd_votes n) !! v = Some d) /\
       forall d', fc_known (nd_votes n) !! v = Some d' \/ fc_new (nd_votes n) !! v = Some d' ->
                  vote_le (e_data E) d' d) /\
    (forall v, fc_known (nd_votes n') !! v = None ->
       fc_known (nd_votes n) !! v = None /\ fc_new (nd_votes n) !! v = None) /\
    fc_new (nd_votes n') = ∅ /\
    nd_new n' = buf_new (bf_cap (nd_new n)) /\
    (exists bs b, pool_run (e_data E) (nd_known n) (all_pushes (nd_new n)) bs b /\
       (nd_known n' = b \/
        (cp_slot (db_fin (nd_db n)) < cp_slot (db_fin (nd_db n')) /\
         exists k, payload_prune (cp_slot (db_fin (nd_db n'))) b = Ok (nd_known n', k)))) /\
    (exists w, compute_lmd_ghost_head (cp_root (db_just (nd_db n))) (map_to_list (live_chain (tab n)))
                 (map_to_list (fc_known (nd_votes n'))) 0 = Some (db_head (nd_db n'), w)) /\
    db_just (nd_db n') = db_just (nd_db n) /\ db_time (nd_db n') = db_time (nd_db n).
  Proof.
    intros Hgood Hvals Hr Hacc.
    destruct (reachable_inv E gt vals Hgood Hvals _ Hr) as (A & As & w & [Hi (Hm1 & Hm2 & Hm3)] & _).
    pose proof (accept_time E _ _ Hacc) as Htime.
    unfold accept_new_attestations in Hacc. apply rbind_Ok in Hacc as ([nw kn] & Hp & Hu).
    unfold payload_promote in Hp. destruct (payload_drain (nd_new n)) as [nw0 l] eqn:Hdr.
    destruct (drain_pool_spec _ _ Hm1) as [Hd1 Hd2]. rewrite Hdr in Hd1, Hd2. cbn [fst snd] in Hd1, Hd2.
    apply rbind_Ok in Hp as (kn0 & Hb & Hp). injection Hp as <- <-. cbn [fst snd] in Hu. subst nw0.
    apply push_batch_run in Hb as [bs Hbs].
    assert (map (fun x => Push x.1 x.2) l = all_pushes (nd_new n)) as Hl.
    { rewrite Hd2. unfold all_pushes. rewrite concat_map, map_map. f_equal. apply map_ext. intros r.
      destruct (bf_data (nd_new n) !! r) as [e|]; [|done]. by rewrite map_map. }
    rewrite Hl in Hbs. unfold update_head in Hu.
    apply rbind_Ok in Hu as (h & Hh & Hu). apply rbind_Ok in Hu as (f & _ & Hu).
    apply expect_Ok in Hu. unfold update_checkpoints in Hu. apply rbind_Ok in Hu as (d1 & Hd & Hu).
    set (n1 := mkNode _ _ _ _ _) in *.
    assert (nd_votes n' = nd_votes n1 /\ nd_new n' = nd_new n1 /\
            (nd_known n' = kn0 \/ (cp_slot (db_fin (nd_db n)) < cp_slot (default (db_fin (nd_db n)) f) /\
               exists k, payload_prune (cp_slot (default (db_fin (nd_db n)) f)) kn0 = Ok (nd_known n', k)))) as (Hv & Hnw & Hk).
    { cbn [nd_db n1] in Hu. unfold prune_pools, finalization_advanced in Hu.
      destruct f as [f|]; [|by injection Hu as <-; auto].
      destruct (cp_slot (db_fin (nd_db n)) <? cp_slot f) eqn:Hlt; [|by injection Hu as <-; auto].
      apply N.ltb_lt in Hlt. cbn [with_db nd_votes nd_new nd_known nd_gossip n1] in Hu.
      rewrite prune_new in Hu. cbn [default].
      apply rbind_Ok in Hu as (g & _ & Hu). cbn [rbind] in Hu.
      destruct (payload_prune (cp_slot f) kn0) as [[k c]| |] eqn:Hpk; try done.
      cbn in Hu. injection Hu as <-. cbn. eauto 10. }
    apply prune_pools_db in Hu. cbn [with_db nd_db] in Hu.
    assert (db_head (nd_db n') = h /\ db_just (nd_db n') = db_just (nd_db n) /\
            db_fin (nd_db n') = default (db_fin (nd_db n)) f) as (Hhead & Hj & Hf).
    { rewrite Hu. unfold apply_checkpoints in Hd. apply rbind_Ok in Hd as ([dels puts] & _ & Hd).
      injection Hd as <-. by destruct (finalization_advanced _ _). }
    rewrite Hf. split_and!; try done.
    - intros v d Hvd. rewrite Hv in Hvd. pose proof (promote_votes (nd_votes n) v) as Hbest.
      cbn [n1 nd_votes] in Hvd. rewrite Hvd in Hbest. exact Hbest.
    - intros v Hvd. rewrite Hv in Hvd. pose proof (promote_votes (nd_votes n) v) as Hbest.
      cbn [n1 nd_votes] in Hvd. rewrite Hvd in Hbest. cbn [best_of] in Hbest.
      split; [destruct (fc_known (nd_votes n) !! v) as [d|] eqn:He|destruct (fc_new (nd_votes n) !! v) as [d|] eqn:He];
        try done; exfalso; apply (Hbest d); auto.
    - by rewrite Hv.
    - eauto.
    - unfold ghost_head, known_votes in Hh. rewrite Hv, Hhead.
      change (nd_db n1) with (nd_db n) in Hh. change (tab n1) with (tab n) in Hh.
      destruct (compute_lmd_ghost_head _ _ _ 0) as [[h' wt]|]; [|done]. injection Hh as ->. by exists wt.
  Qed.

  Lemma C35_safe_pf n n' :
    update_safe_target n = Ok n' ->
    exists s r w, read_state (tab n) (db_head (nd_db n)) = Ok (Some s) /\
      compute_lmd_ghost_head (cp_root (db_just (nd_db n))) (map_to_list (live_chain (tab n)))
        (map_to_list (fc_new (nd_votes n))) ((lenN (s_validators s) * 2 + 2) / 3) = Some (r, w) /\
      n' = mkNode (mkDb (db_time (nd_db n)) (db_gt (nd_db n)) (db_head (nd_db n)) r (db_just (nd_db n))
                     (db_fin (nd_db n)) (db_tab (nd_db n)))
             (nd_votes n) (nd_new n) (nd_known n) (nd_gossip n).
  Proof.
    unfold update_safe_target. intros H. apply rbind_Ok in H as (o & Ho & H). apply expect_Ok in Ho.
    destruct o as [s|]; [|done]. unfold safe_target, safe_target_score, new_votes in H.
    destruct (compute_lmd_ghost_head _ _ _ _) as [[r w]|] eqn:Hc; [|done]. cbn in H. injection H as <-.
    exists s, r, w. by rewrite Hc.
  Qed.

  Lemma block_votes_best P f l v :
    best_of (e_data E) P (fc_known f !! v) ->
    best_of (e_data E) (fun d => P d \/ exists a, a ∈ l /\ at_data a = d /\ at_bits a !! N.to_nat v = Some true)
      (fc_known (record_block_votes E f l) !! v) /\
    fc_new (record_block_votes E f l) = fc_new f.
  Proof.
    unfold record_block_votes. revert f P. induction l as [|a l IH]; intros f P H; cbn [fold_left].
    - split; [|done]. eapply best_of_ext; [|exact H]. intros d. split; [by left|].
      intros [?|(a & Ha & _)]; [done|]. by apply elem_of_nil in Ha.
    - destruct (IH (record_known (e_data E) f (at_bits a) (at_data a))
                  (fun d => P d \/ (v ∈ validator_indices (at_bits a) /\ d = at_data a))) as [H1 H2].
      { unfold record_known. cbn [fc_known]. by apply record_all_best. }
      rewrite H2. split; [|done]. eapply best_of_ext; [|exact H1]. intros d. cbn beta.
      rewrite validator_indices_spec. split.
      + intros [[?|[Hv ->]]|(a' & Ha & ?)]; [by left|right; exists a; split; [left|done]|right; exists a'; split; [by right|done]].
      + intros [?|(a' & Ha & He & Hv)]; [by left; left|]. apply elem_of_cons in Ha as [->|Ha]; [left; right|right]; eauto.
  Qed.

  Lemma C19_imported_pf gt vals n sb n' :
    good_hash (e_header E) -> lenN vals <= VALIDATOR_REGISTRY_LIMIT ->
    reachable E gt vals n ->
    let b := sb_block sb in let root := block_root (e_header E) (e_body E) b in
    has_state (tab n) root = false -> on_block E n sb = Ok n' ->
    let voted v d := fc_known (nd_votes n) !! v = Some d \/
      exists a, a ∈ b_atts b /\ at_data a = d /\ at_bits a !! N.to_nat v = Some true in
    (forall v d, fc_known (nd_votes n') !! v = Some d ->
       voted v d /\ forall d', voted v d' -> vote_le (e_data E) d' d) /\
    (forall v d, voted v d -> is_Some (fc_known (nd_votes n') !! v)) /\
    fc_new (nd_votes n') = fc_new (nd_votes n) /\
    exists w, compute_lmd_ghost_head (cp_root (db_just (nd_db n')))
                (map_to_list (<[root := (b_slot b, b_parent b)]> (live_chain (tab n))))
                (map_to_list (fc_known (nd_votes n'))) 0 = Some (db_head (nd_db n'), w).
  Proof.
    intros Hgood Hvals Hr b root Hnew Hok voted.
    destruct (reachable_inv E gt vals Hgood Hvals _ Hr) as (A & As & w & Hn & _).
    unfold on_block in Hok. apply rbind_Ok in Hok as (o & Hc & Hok).
    destruct (check_block_spec E gt vals _ _ _ _ _ _ (proj1 Hn) Hc) as [[-> Hw]|(p & post & Hnone & Hpar & Hst & ->)].
    { exfalso. unfold tab in Hnew. rewrite (has_state_spec _ _ _ _ _ root (di_st _ _ _ _ _ _ _ (proj1 Hn))) in Hnew.
      apply bool_decide_eq_false in Hnew. done. }
    destruct (import_spec E gt vals Hgood Hvals _ _ _ _ sb _ _ Hn Hnone Hpar Hst) as
      (d1 & d3 & n1 & h & o & d4 & H1 & Hi1 & _ & _ & _ & H2 & Hi3 & H3 & H4 & _ & H5 & H6 & H7 & _ & H8 & Hhu & Hv & Hlive & Hget & _ & Hfin).
    assert (n1 = n') as ->.
    { rewrite H1 in Hok. cbn [expect rbind] in Hok. rewrite H2 in Hok. cbn [expect rbind] in Hok. rewrite H3 in Hok.
      cbn [expect] in Hok. congruence. }
    cbn [nd_votes] in Hv. fold b in Hv.
    assert (forall v, best_of (e_data E) (voted v) (fc_known (nd_votes n') !! v) /\
                      fc_new (nd_votes n') = fc_new (nd_votes n)) as Hb.
    { intros v. rewrite Hv. apply (block_votes_best (fun d => fc_known (nd_votes n) !! v = Some d)).
      destruct (fc_known (nd_votes n) !! v) as [d|]; cbn [best_of]; [|by intros d].
      split; [done|]. intros d' [= ->]. apply vote_le_refl. }
    split_and!.
    - intros v d Hvd. destruct (Hb v) as [Hbest _]. rewrite Hvd in Hbest. exact Hbest.
    - intros v d Hvd. destruct (Hb v) as [Hbest _]. destruct (fc_known (nd_votes n') !! v); [done|].
      cbn [best_of] in Hbest. by apply Hbest in Hvd.
    - apply (Hb 0).
    - rewrite (hu_head _ _ _ Hhu), (hu_just _ _ _ Hhu). unfold ghost_head, known_votes in H5. cbn [nd_votes nd_db] in H5.
      rewrite Hv.
      assert (<[root := (b_slot b, b_parent b)]> (live_chain (tab n)) = live_chain (db_tab d3)) as ->.
      { symmetry. apply map_eq. intros r. destruct (decide (r = root)) as [->|Hne].
        - rewrite lookup_insert. apply (live_lookup _ _ _ _ _ _ _ _ _ _ Hi3). rewrite Hlive. apply lookup_insert.
        - rewrite lookup_insert_ne by done. apply option_eq. intros [sl q].
          rewrite (live_lookup _ _ _ _ _ _ _ _ _ _ Hi3). unfold tab.
          rewrite (live_lookup _ _ _ _ _ _ _ _ _ _ (proj1 Hn)), Hlive.
          rewrite lookup_insert_ne; [done|]. intros Heq. apply Hne. symmetry. exact (f_equal snd Heq). }
      unfold tab in H5. cbn [nd_db] in H5. fold b in H5.
      destruct (compute_lmd_ghost_head _ _ _ 0) as [[h' wt]|]; [|done]. injection H5 as ->. by exists wt.
  Qed.
End Duties.
