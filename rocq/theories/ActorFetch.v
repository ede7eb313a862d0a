(** Which blocks are asked from peers (C42). *)
From Verif Require Export DutyAsk.

Section Fetch.
  Context (E : Env) (C : Config) (gt : N) (vals : list Validator).
  Context (Hgood : good_hash (e_header E)) (Hvals : lenN vals <= VALIDATOR_REGISTRY_LIMIT).
  Context (rank : H256 -> N) (Hrank : forall h, rank (h_parent h) < rank (e_header E h)).
  Notation hb := (e_body E).
  Notation root_ := (block_root (e_header E) (e_body E)).
  Notation reach := (reachable E gt vals).

  Lemma fetched_app l l' : fetched (l ++ l') = fetched l ++ fetched l'.
  Proof using. apply omap_app. Qed.
  Lemma fetched_events l : fetched (map fx_event l) = [].
  Proof using. induction l; [done|]. exact IHl. Qed.
  Lemma import_fetch W n sb n' fx : import_and_emit E W n sb = Ok (n', fx) -> fetched fx = [].
  Proof using.
    unfold import_and_emit. intros H. apply rbind_Ok in H as (n1 & _ & H). apply rbind_Ok in H as (? & _ & H).
    injection H as _ <-. rewrite fetched_app, fetched_events. by destruct (negb _).
  Qed.
  Lemma reagg_fetch W a sb a' fx : run_reaggregate E C W a sb = Ok (a', fx) -> fetched fx = [].
  Proof using.
    unfold run_reaggregate. destruct (duties_allowed C a); intros H.
    - apply rbind_Ok in H as (n & _ & H). injection H as _ <-. destruct (w_aggregator W); [|done].
      induction (w_reagg _ _ _); [done|]. exact IHl.
    - injection H as _ <-. done.
  Qed.
  Lemma pop_fetch W a sb a' q fx : has_state (tab (ac_node a)) (b_parent (sb_block sb)) = true ->
    process_or_pend_block E C W a sb = Ok (a', q, fx) -> fetched fx = [].
  Proof using.
    unfold process_or_pend_block. intros Hs H. rewrite Hs in H. cbn [negb] in H.
    destruct (_ <=? _); [apply rbind_Ok in H as (? & _ & H); injection H as _ _ <-; done|].
    destruct (_ <? _); [apply rbind_Ok in H as (? & _ & H); injection H as _ _ <-; done|].
    destruct (import_and_emit E W (ac_node a) sb) as [[n' fx1]|e|] eqn:Him; [| |done].
    - apply rbind_Ok in H as ([a1 fx2] & Hre & H). injection H as _ _ <-.
      apply import_fetch in Him. apply reagg_fetch in Hre. cbn [snd]. by rewrite fetched_app, Him, Hre.
    - injection H as _ _ <-. done.
  Qed.
  Lemma loop_fetch fuel W a q a' fx :
    reach (ac_node a) -> pending_ok a -> world_ok W ->
    (forall x, x ∈ q -> has_state (tab (ac_node a)) (b_parent (sb_block x)) = true) ->
    block_loop E C fuel W a q = Ok (a', fx) -> fetched fx = [].
  Proof using Hgood Hvals Hrank.
    revert a q fx. induction fuel as [|f IH]; intros a [|sb q] fx Hr HP HW Hq H; cbn [block_loop] in H; try done;
      try (injection H as _ <-; done).
    apply rbind_Ok in H as ([[a1 q1] fx1] & H1 & H). apply rbind_Ok in H as ([a2 fx2] & H2 & H).
    injection H as -> <-. cbn [fst snd] in *.
    pose proof (pop_ok E C gt vals Hgood Hvals rank Hrank W a sb Hr HP HW) as Hok. rewrite H1 in Hok.
    destruct Hok as (Hr1 & HP1 & Hq1 & _).
    destruct (pop_goes E C _ _ _ _ _ _ H1) as (G & _).
    destruct (goes_mono E gt vals Hgood Hvals _ _ _ Hr G) as [_ Hmono].
    rewrite fetched_app, (pop_fetch _ _ _ _ _ _ (Hq sb ltac:(left)) H1). cbn [app].
    apply (IH a1 (q ++ q1)); try done.
    intros x Hx. apply elem_of_app in Hx as [Hx|Hx]; [|by apply Hq1]. apply Hmono, Hq. by right.
  Qed.

  Lemma early_fetch W a a' fx : maybe_start_early_aggregation C W a = Ok (a', fx) -> fetched fx = [].
  Proof using.
    unfold maybe_start_early_aggregation. intros H.
    destruct (negb _); [by injection H as <- <-|]. destruct (_ <? _); [by injection H as <- <-|].
    destruct (_ || _); [by injection H as <- <-|]. case_bool_decide; [by injection H as <- <-|].
    apply rbind_Ok in H as (s & _ & H). destruct (_ || _); [by injection H as <- <-|].
    unfold start_aggregation_session in H. apply rbind_Ok in H as (p & _ & H). by destruct (w_jobs _ _ _ _); injection H as <- <-.
  Qed.

  Definition gates (n : Node) (b : Block) : Prop :=
    cp_slot (db_fin (nd_db n)) < b_slot b /\
    saturating_mul (b_slot b) INTERVALS_PER_SLOT <= db_time (nd_db n) + GOSSIP_DISPARITY_INTERVALS.

  Lemma walk_none fuel n a r a' sb : walk_up E fuel n a r = Ok (a', inl sb) ->
    ~ (forall x, strict_anc (tab n) x r -> has_state (tab n) x = false).
  Proof using.
    revert a r. induction fuel as [|f IH]; intros a r H Hno; cbn [walk_up] in H;
      (destruct (get_header (tab n) r) as [h|] eqn:Hh; unfold get_header in Hh; [|done]);
      rewrite (Hno (h_parent h)) in H by (apply sa_one; by exists h).
    { done. }
    eapply IH; [exact H|]. intros x Hx. apply Hno. eapply sa_more; [by exists h|done].
  Qed.

  (** The first block of the queue. *)
  Lemma pend_fetch W a sb a' q fx : reach (ac_node a) -> pending_ok a -> world_ok W ->
    process_or_pend_block E C W a sb = Ok (a', q, fx) ->
    (fetched fx = [] /\
     ~ (gates (ac_node a) (sb_block sb) /\
        forall x, x = b_parent (sb_block sb) \/ strict_anc (tab (ac_node a)) x (b_parent (sb_block sb)) ->
          has_state (tab (ac_node a)) x = false)) \/
    exists r, fx = [fx_fetch r] /\ q = [] /\ gates (ac_node a) (sb_block sb) /\
      has_state (tab (ac_node a)) (b_parent (sb_block sb)) = false /\
      t_headers (tab (ac_node a')) !! r = None /\
      strict_anc (tab (ac_node a')) r (root_ (sb_block sb)) /\
      exists cs, ac_pend a' !! b_parent (sb_block sb) = Some cs /\ root_ (sb_block sb) ∈ cs.
  Proof using Hgood Hvals Hrank.
    intros Hr HP HW H. pose proof (reach_ranked E gt vals Hgood Hvals _ _ Hrank Hr) as Hrk.
    pose proof (pop_fetch W a sb a' q fx) as Hst.
    destruct (has_state (tab (ac_node a)) (b_parent (sb_block sb))) eqn:Hp.
    { left. split; [by apply Hst|]. intros [Hg Hno]. rewrite Hno in Hp; [done|by left]. }
    clear Hst. unfold process_or_pend_block in H. set (root := root_ (sb_block sb)) in *. set (n := ac_node a) in *.
    rewrite Hp in H. cbn [negb] in H. unfold gates.
    destruct (N.leb_spec (b_slot (sb_block sb)) (cp_slot (db_fin (nd_db n)))) as [Hf|Hf].
    { left. apply rbind_Ok in H as (? & _ & H). injection H as _ _ <-. split; [done|]. intros [[? _] _]. lia. }
    destruct (N.ltb_spec (db_time (nd_db n) + GOSSIP_DISPARITY_INTERVALS) (saturating_mul (b_slot (sb_block sb)) INTERVALS_PER_SLOT)) as [Ht|Ht].
    { left. apply rbind_Ok in H as (? & _ & H). injection H as _ _ <-. split; [done|]. intros [[_ ?] _]. lia. }
    destruct (chase_ok rank a (size (ac_par a)) (b_parent (sb_block sb)) HP Hrk (cnt_le rank _ _)) as (m & Hm & Hmn & Hanc).
    rewrite Hm in H. cbn [rbind] in H.
    set (n' := with_db n _) in *. set (a1 := mkActor n' _ _ _ _) in *.
    assert (tab n' = write_signed_block hb (tab n) root sb) as Htab by done.
    assert (grows (tab n) (tab n')) as Hg.
    { intros r h Hh. rewrite Htab, written_headers. destruct (decide (r = root)) as [->|Hne]; [|by rewrite lookup_insert_ne].
      rewrite lookup_insert. f_equal. destruct (reachable_inv E gt vals Hgood Hvals _ Hr) as (A & As & w & [Hi _] & _).
      pose proof (inv_hashed _ _ _ _ _ _ _ Hi _ _ Hh) as Hhash. unfold root, block_root in Hhash.
      apply (proj1 Hgood) in Hhash. done. }
    assert (ranked rank (tab n')) as Hrk'.
    { intros x h Hx. rewrite Htab, written_headers in Hx. destruct (decide (x = root)) as [->|Hne].
      - rewrite lookup_insert in Hx. injection Hx as <-. unfold root, block_root. apply Hrank.
      - rewrite lookup_insert_ne in Hx by done. by apply Hrk. }
    assert (parent_of (tab n') root (b_parent (sb_block sb))) as Hpar.
    { exists (header_of hb (sb_block sb)). split; [|done]. by rewrite Htab, written_headers, lookup_insert. }
    assert (strict_anc (tab n') m root) as Han.
    { destruct Hanc as [->|Hanc]; [by apply sa_one|]. eapply sa_more; [exact Hpar|]. by eapply anc_grow. }
    assert (pending_ok a1) as HP1.
    { apply (register_ok (with_node a n') root (b_parent (sb_block sb)) m); [|done|done].
      apply (pending_grow a); done. }
    pose proof (walk_ok E rank n' (size (t_headers (tab n'))) a1 m eq_refl HP1 Hrk' (cnt_le rank _ _)) as Hwalk.
    destruct (walk_up E (size (t_headers (tab n'))) n' a1 m) as [[a2 x]|e|] eqn:Hw; [|done|done].
    cbn [rbind fst snd] in *. destruct Hwalk as (HP2 & Hkeep & _ & Hx). pose proof (walk_maps _ _ _ _ _ _ _ Hw) as (Hn2 & _).
    cbn [ac_node] in Hn2. change (ac_node a1) with n' in Hn2.
    destruct x as [sb'|r]; injection H as <- <- <-; rewrite Hn2.
    - left. split; [done|]. intros [_ Hno].
      assert (forall q, rank q < rank root -> forall x, strict_anc (tab n') x q -> strict_anc (tab n) x q) as Hdown.
      { intros q Hq x Hxa. induction Hxa as [c (h & H1 & H2)|c q' (h & H1 & H2) _ IH];
          rewrite Htab, written_headers, lookup_insert_ne in H1 by (intros ->; lia); pose proof (Hrk _ _ H1) as Hlt; rewrite H2 in Hlt.
        - apply sa_one. by exists h.
        - eapply sa_more; [by exists h|]. apply IH. lia. }
      assert (rank (b_parent (sb_block sb)) < rank root) as Hpr by (apply (Hrank (header_of hb (sb_block sb)))).
      assert (rank m <= rank (b_parent (sb_block sb))) as Hmr.
      { destruct Hanc as [->|Hanc]; [lia|]. apply (anc_rank rank _ _ _ Hrk) in Hanc. lia. }
      apply (walk_none _ _ _ _ _ _ Hw). intros x Hxm.
      apply (Hdown m ltac:(lia)) in Hxm. change (tab n') with (write_signed_block hb (tab n) root sb). rewrite written_state.
      apply Hno. right. destruct Hanc as [->|Hanc]; [done|by eapply anc_trans].
    - right. exists r. destruct Hx as [Hx1 Hx2]. split_and!; try done.
      + destruct Hx2 as [->|Hx2]; [done|by eapply anc_trans].
      + apply Hkeep. apply (register_set (with_node a n') root (b_parent (sb_block sb)) m). by left.
  Qed.

  Lemma block_fetch W a sb g a' fx : reach (ac_node a) -> pending_ok a -> world_ok W ->
    actor_step E C W a (m_block sb g) = Ok (a', fx) ->
    (fetched fx = [] /\
     ~ (gates (ac_node a) (sb_block sb) /\
        forall x, x = b_parent (sb_block sb) \/ strict_anc (tab (ac_node a)) x (b_parent (sb_block sb)) ->
          has_state (tab (ac_node a)) x = false)) \/
    exists r, fetched fx = [r] /\ gates (ac_node a) (sb_block sb) /\
      has_state (tab (ac_node a)) (b_parent (sb_block sb)) = false /\
      t_headers (tab (ac_node a')) !! r = None /\
      strict_anc (tab (ac_node a')) r (root_ (sb_block sb)) /\
      exists cs, ac_pend a' !! b_parent (sb_block sb) = Some cs /\ root_ (sb_block sb) ∈ cs.
  Proof using Hgood Hvals Hrank.
    intros Hr HP HW H. cbn [actor_step] in H. apply rbind_Ok in H as ([a1 fx1] & H1 & H). injection H as <- <-. cbn [fst snd].
    unfold actor_on_block in H1. apply rbind_Ok in H1 as ([a2 fx2] & H1 & H2).
    apply rbind_Ok in H2 as (d & Hd & H2). injection H2 as <- <-. cbn [fst snd] in *.
    rewrite fetched_app. replace (fetched (if g then _ else _)) with (@nil H256) by (by destruct g). cbn [app].
    replace (size (t_headers (tab (ac_node a))) + 4)%nat with (S (size (t_headers (tab (ac_node a))) + 3)) in H1 by lia.
    cbn [block_loop app] in H1. apply rbind_Ok in H1 as ([[a3 q] fx3] & H3 & H1).
    apply rbind_Ok in H1 as ([a4 fx4] & H4 & H1). injection H1 as -> <-. cbn [fst snd] in *.
    pose proof (pop_ok E C gt vals Hgood Hvals rank Hrank W a sb Hr HP HW) as Hok. rewrite H3 in Hok.
    destruct Hok as (Hr3 & HP3 & Hq3 & _).
    rewrite fetched_app, (loop_fetch _ _ _ _ _ _ Hr3 HP3 HW Hq3 H4), app_nil_r.
    destruct (pend_fetch _ _ _ _ _ _ Hr HP HW H3) as [?|(r & -> & -> & Hg & Hs & Hn & Ha & Hw)]; [by left|]. right.
    assert (a2 = a3) as -> by (destruct (_ + 3)%nat in H4; cbn in H4; by injection H4).
    assert (t_headers (tab (with_db (ac_node a3) d)) = t_headers (tab (ac_node a3))) as Hh.
    { unfold prune_old_data in Hd. destruct (get_header _ _) as [h|]; [|done]. injection Hd as <-.
      unfold tab, prune_old_block_proofs. cbn. by destruct (_ || _). }
    exists r. cbn [ac_node ac_pend with_node]. split_and!; try done; [by rewrite Hh|].
    revert Ha. apply anc_grow. intros x h Hx. by rewrite Hh.
  Qed.
  Lemma other_fetch W a m a' fx : (forall sb g, m <> m_block sb g) -> actor_step E C W a m = Ok (a', fx) -> fetched fx = [].
  Proof using.
    intros Hm H. unfold actor_step in H. destruct m as [|sb g|sa|sg| |id data p parts keys]; [|by destruct (Hm sb g)|..]; clear Hm.
    - apply tick_detail in H as [(-> & -> & _)|(hp & n2 & a2 & ev & fx2 & Htime & Hon & Hn2 & Hsy & Hse & -> & Hd)]; [done|].
      rewrite fetched_app, fetched_events. cbn [app]. unfold interval_duty in Hd.
      destruct (interval_of _).
      + by injection Hd as <- <-.
      + destruct (duties_allowed C a2); [|by injection Hd as <- <-].
        unfold produce_attestations in Hd. apply rbind_Ok in Hd as (data & _ & Hd).
        apply rbind_Ok in Hd as ([n1 fx1] & H1 & Hd). injection Hd as <- <-. cbn [snd].
        revert H1. generalize (ac_node a2). revert fx1. generalize (cf_own C). clear.
        intros vs. induction vs as [|v vs IH]; intros fx1 n H; cbn [publish_votes] in H; [by injection H as _ <-|].
        destruct (w_sign W v data) as [sig|]; [|by eapply IH]. apply rbind_Ok in H as (n2 & _ & H).
        apply rbind_Ok in H as ([n3 fx3] & H3 & H). injection H as -> <-. apply IH in H3. exact H3.
      + destruct (_ && _); [|by injection Hd as <- <-]. unfold start_aggregation_session in Hd.
        apply rbind_Ok in Hd as (p & _ & Hd). by destruct (w_jobs _ _ _ _); injection Hd as <- <-.
      + by injection Hd as <- <-.
      + apply rbind_Ok in Hd as (p & _ & Hd). destruct p as [v|]; [|by injection Hd as <- <-].
        destruct (duties_allowed C a2); [|by injection Hd as <- <-].
        unfold propose_block in Hd. apply rbind_Ok in Hd as ([n1 h] & H1 & Hd). cbn [fst] in Hd.
        destruct (w_build W n1 _ v) as [sb|]; [|injection Hd as <- <-; apply fetched_events].
        destruct (import_and_emit E W n1 sb) as [[n3 fx3]|e|] eqn:Hpb; [|injection Hd as <- <-; apply fetched_events|done].
        injection Hd as <- <-. apply import_fetch in Hpb. by rewrite !fetched_app, fetched_events, Hpb.
    - apply rbind_Ok in H as ([n1 fx1] & H1 & H). cbn [fst snd] in H.
      assert (fetched fx1 = []) as Hf.
      { destruct (on_gossip_attestation E (ac_node a) sa (w_aggregator W)) as [n'|e|]; [| |done]; by injection H1 as <- <-. }
      destruct (_ =? _) in H; [|by injection H as <- <-].
      apply rbind_Ok in H as ([a2 fx2] & H2 & H). injection H as <- <-. cbn [snd]. rewrite fetched_app, Hf. by eapply early_fetch.
    - destruct (on_gossip_aggregated_attestation E (ac_node a) sg) as [n'|e|]; [| |done]; by injection H as <- <-.
    - by eapply early_fetch.
    - case_bool_decide; [|by injection H as <- <-]. apply rbind_Ok in H as (n' & H1 & H). by injection H as <- <-.
  Qed.
End Fetch.

Lemma gates_iff n b : clock_fits n -> gates n b <-> cp_slot (db_fin (nd_db n)) < b_slot b /\ 5 * b_slot b <= db_time (nd_db n) + 1.
Proof.
  unfold gates, clock_fits, saturating_mul, two32, two64, INTERVALS_PER_SLOT, GOSSIP_DISPARITY_INTERVALS. lia.
Qed.
Lemma C42_fetch_pf E C gt vals W a sb g a' fx :
  good_hash (e_header E) -> lenN vals <= VALIDATOR_REGISTRY_LIMIT -> acyclic_hash (e_header E) ->
  actor_reachable E C gt vals a -> world_ok W -> clock_fits (ac_node a) ->
  actor_step E C W a (m_block sb g) = Ok (a', fx) ->
  let n := ac_node a in let n' := ac_node a' in let b := sb_block sb in
  fetched fx = [] \/
  exists r, fetched fx = [r] /\
    cp_slot (db_fin (nd_db n)) < b_slot b /\ 5 * b_slot b <= db_time (nd_db n) + 1 /\
    has_state (tab n) (b_parent b) = false /\
    t_headers (tab n') !! r = None /\
    strict_anc (tab n') r (block_root (e_header E) (e_body E) b) /\
    exists cs, ac_pend a' !! b_parent b = Some cs /\ block_root (e_header E) (e_body E) b ∈ cs.
Proof.
  intros H1 H2 H3 Hr HW Hc Hs. cbn zeta. destruct (actor_reach E C gt vals H1 H2 a Hr H3) as [Hn Hp].
  destruct H3 as [rank Hrank].
  destruct (block_fetch E C gt vals H1 H2 rank Hrank W a sb g a' fx Hn Hp HW Hs) as [[H _]|(r & Hf & Hg & Hst & Hh & Ha & Hcs)]; [by left|].
  right. exists r. apply gates_iff in Hg as [G1 G2]; [|done]. auto 10.
Qed.
Lemma C42_asks_pf E C gt vals W a sb g a' fx :
  good_hash (e_header E) -> lenN vals <= VALIDATOR_REGISTRY_LIMIT -> acyclic_hash (e_header E) ->
  actor_reachable E C gt vals a -> world_ok W -> clock_fits (ac_node a) ->
  actor_step E C W a (m_block sb g) = Ok (a', fx) ->
  let n := ac_node a in let b := sb_block sb in
  cp_slot (db_fin (nd_db n)) < b_slot b -> 5 * b_slot b <= db_time (nd_db n) + 1 ->
  (forall x, x = b_parent b \/ strict_anc (tab n) x (b_parent b) -> has_state (tab n) x = false) ->
  exists r, fetched fx = [r].
Proof.
  intros H1 H2 H3 Hr HW Hc Hs. cbn zeta. intros G1 G2 Ha. destruct (actor_reach E C gt vals H1 H2 a Hr H3) as [Hn Hp].
  destruct H3 as [rank Hrank].
  destruct (block_fetch E C gt vals H1 H2 rank Hrank W a sb g a' fx Hn Hp HW Hs) as [[_ H]|(r & Hf & _)]; [|by exists r].
  destruct H. split; [|done]. by apply gates_iff.
Qed.

Lemma C66_votes_pf E C gt vals W a a' fx :
  good_hash (e_header E) -> lenN vals <= VALIDATOR_REGISTRY_LIMIT -> vals <> [] ->
  reachable E gt vals (ac_node a) -> actor_step E C W a m_tick = Ok (a', fx) ->
  let i := wall_interval W a in
  db_time (nd_db (ac_node a)) < i -> i mod 5 = 1 -> cf_gate C = false \/ ac_syncing a' = false ->
  exists data, produce_attestation_data (nd_db (ac_node a')) (i / 5) = Ok data /\ ad_slot data = i / 5 /\
    cp_root (ad_head data) = db_head (nd_db (ac_node a')) /\
    votes_out fx = omap (fun v => mkSA v data <$> w_sign W v data) (cf_own C).
Proof.
  cbn zeta. intros H1 H2 Hne Hr Hs Hlt Hm Hg.
  destruct (votes_cast E C gt vals H1 H2 W a a' fx Hr Hne Hs Hlt Hm Hg) as (_ & data & Hd & Hv).
  assert (reachable E gt vals (ac_node a')) as Hr'.
  { exact (reach_goes E gt vals _ _ _ Hr (step_goes E C W a m_tick a' fx Hs)). }
  destruct (C34_produced_pf E gt vals H1 H2 _ (wall_interval W a / 5) Hr') as (d2 & hs & Hd2 & Hsl & _ & Hh & _).
  rewrite Hd in Hd2. injection Hd2 as <-. exists data. rewrite Hh. auto.
Qed.
Lemma C66_block_pf E C gt vals W a a' fx v :
  good_hash (e_header E) -> lenN vals <= VALIDATOR_REGISTRY_LIMIT -> vals <> [] ->
  reachable E gt vals (ac_node a) -> actor_step E C W a m_tick = Ok (a', fx) ->
  let i := wall_interval W a in let slot := i / 5 + 1 in
  db_time (nd_db (ac_node a)) < i -> i mod 5 = 4 -> cf_gate C = false \/ ac_syncing a' = false ->
  v ∈ cf_own C -> v = slot mod lenN vals ->
  exists n n1 h, reachable E gt vals n /\ db_time (nd_db n) = i /\
    get_proposal_head E n slot = Ok (n1, h) /\ reachable E gt vals n1 /\
    forall sb n2, w_build W n1 slot v = Some sb -> on_block E n1 sb = Ok n2 ->
      blocks_out fx = [sb] /\
      has_state (tab (ac_node a')) (block_root (e_header E) (e_body E) (sb_block sb)) = true.
Proof.
  cbn zeta. intros H1 H2 Hne Hr Hs Hlt Hm Hg Hv Hp.
  refine (block_proposed E C gt vals H1 H2 W a a' fx v Hr Hne Hs Hlt Hm Hg Hv _).
  unfold is_proposer. apply bool_decide_eq_true. unfold current_proposer.
  destruct (0 <? lenN vals) eqn:H0; [f_equal; symmetry; exact Hp|].
  apply N.ltb_ge in H0. destruct vals; [done|]. unfold lenN in H0. cbn in H0. lia.
Qed.
