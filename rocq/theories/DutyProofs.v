(** Proofs about duties (C65, C66). *)
From Verif Require Export DutySpec ActorRuns.
From Verif Require Import AggNode.

Lemma votes_out_app l l' : votes_out (l ++ l') = votes_out l ++ votes_out l'.
Proof. apply omap_app. Qed.
Lemma blocks_out_app l l' : blocks_out (l ++ l') = blocks_out l ++ blocks_out l'.
Proof. apply omap_app. Qed.
Lemma no_pub_out fx : no_pub fx -> votes_out fx = [] /\ blocks_out fx = [].
Proof.
  intros H. split; apply list_empty_included || idtac.
  - destruct (votes_out fx) as [|x l] eqn:Hx; [done|]. exfalso.
    assert (x ∈ votes_out fx) as Hin by (rewrite Hx; left).
    apply elem_of_list_omap in Hin as (y & Hy & Hyx). destruct y; try done. apply (H _ Hy). left. by eexists.
  - destruct (blocks_out fx) as [|x l] eqn:Hx; [done|]. exfalso.
    assert (x ∈ blocks_out fx) as Hin by (rewrite Hx; left).
    apply elem_of_list_omap in Hin as (y & Hy & Hyx). destruct y; try done. apply (H _ Hy). right. by eexists.
Qed.

Section Duties.
  Context (E : Env) (C : Config) (gt : N) (vals : list Validator).
  Context (Hgood : good_hash (e_header E)) (Hvals : lenN vals <= VALIDATOR_REGISTRY_LIMIT).
  Notation reach := (reachable E gt vals).

  Definition signed_votes (W : World) (data : AttestationData) (vs : list N) : list SignedAtt :=
    omap (fun v => mkSA v data <$> w_sign W v data) vs.

  Lemma gossip_att_db n sa b n' : on_gossip_attestation E n sa b = Ok n' -> nd_db n' = nd_db n.
  Proof using. clear Hgood Hvals.
    unfold on_gossip_attestation. intros Ho.
    apply rbind_Ok in Ho as (? & _ & Ho). apply rbind_Ok in Ho as (o & _ & Ho). destruct o as [ts|]; [|done].
    destruct (getN _ _) as [v|]; [|done]. destruct (negb (e_key_ok E _)); [done|].
    destruct (_ <=? _) in Ho; [done|]. destruct (negb _) in Ho; [done|]. destruct (negb _) in Ho; [done|].
    destruct b; [|by injection Ho as <-].
    destruct (gossip_insert _ _ _ _ _) as [gg|?|]; cbn in Ho; [|done|done]. by injection Ho as <-.
  Qed.
  Lemma votes_pub W n data agg vs n' fx : publish_votes E W n data agg vs = Ok (n', fx) ->
    votes_out fx = signed_votes W data vs /\ blocks_out fx = [] /\ nd_db n' = nd_db n.
  Proof using. clear Hgood Hvals.
    revert n fx. induction vs as [|v vs IH]; intros n fx H; cbn [publish_votes] in H; [by injection H as <- <-|].
    unfold signed_votes. cbn [omap list_omap]. destruct (w_sign W v data) as [sig|] eqn:Hs; [|by eapply IH].
    apply rbind_Ok in H as (n1 & H1 & H). apply rbind_Ok in H as ([n2 fx2] & H2 & H). injection H as <- <-.
    apply IH in H2 as (V & B & D). cbn [fst snd]. split_and!.
    - cbn [votes_out omap list_omap]. cbn. f_equal. exact V.
    - exact B.
    - rewrite D. destruct agg; [|by injection H1 as <-].
      destruct (on_gossip_attestation E n (mkSA v data sig) true) as [m|e|] eqn:Ho; [|by injection H1 as <-|done].
      injection H1 as <-. by eapply gossip_att_db.
  Qed.

  Lemma time_run n es n' : reach n -> node_run E n es n' ->
    db_time (nd_db n) <= db_time (nd_db n') /\ db_gt (nd_db n') = db_gt (nd_db n).
  Proof.
    intros Hr Hrun. destruct (reachable_inv E gt vals Hgood Hvals _ Hr) as (A & As & w & Hn & _).
    destruct (run_inv E gt vals Hgood Hvals _ _ _ _ _ _ Hn Hrun) as (w' & Hs).
    split; [exact (so_time _ _ _ _ _ _ _ _ _ Hs)|exact (so_gt _ _ _ _ _ _ _ _ _ Hs)].
  Qed.
  Lemma time_goes n fx n' : reach n -> goes E n fx n' ->
    db_time (nd_db n) <= db_time (nd_db n') /\ db_gt (nd_db n') = db_gt (nd_db n).
  Proof. intros Hr (tr & Ht & _). apply traced_run in Ht. by eapply time_run. Qed.

  (** What a tick consists of. *)
  Lemma tick_detail W a a' fx : actor_on_tick E C W a = Ok (a', fx) ->
    let i := wall_interval W a in
    (a' = a /\ fx = [] /\ ((0 < db_time (nd_db (ac_node a)) /\ i <= db_time (nd_db (ac_node a))) \/
       exists s, head_state (ac_node a) = Ok s /\ s_validators s = [])) \/
    exists hp n2 a2 ev fx2, (db_time (nd_db (ac_node a)) = 0 \/ db_time (nd_db (ac_node a)) < i) /\
      on_tick E (ac_node a) (w_now W) hp = Ok n2 /\ ac_node a2 = n2 /\
      ac_syncing a2 = ac_syncing a' /\ ac_session a2 = ac_session a /\
      fx = map fx_event ev ++ fx2 /\ interval_duty E C W a2 (i / 5) (interval_of i) = Ok (a', fx2).
  Proof using. clear Hgood Hvals.
    cbn zeta. unfold actor_on_tick. intros H.
    change MILLISECONDS_PER_INTERVAL with 800 in H. change MILLISECONDS_PER_SLOT with 4000 in H.
    fold (wall_interval W a) in H. set (i := wall_interval W a) in *.
    assert ((w_now W - db_gt (nd_db (ac_node a)) * 1000) / 4000 = i / 5) as Hsl.
    { unfold i, wall_interval. by rewrite N.div_div. }
    rewrite Hsl in H.
    destruct (N.ltb_spec 0 (db_time (nd_db (ac_node a)))) as [Hz|Hz].
    - destruct (N.leb_spec i (db_time (nd_db (ac_node a)))) as [Hi|Hi]; cbn [andb] in H.
      { injection H as <- <-. left. split_and!; try done. by left. }
      apply rbind_Ok in H as (s & Hhs & H).
      destruct (s_validators s) eqn:Hvs; [injection H as <- <-; left; split_and!; try done; right; by exists s|].
      apply rbind_Ok in H as (a1 & Hu & H). apply rbind_Ok in H as (pr & _ & H). apply rbind_Ok in H as (n2 & Ht & H).
      apply rbind_Ok in H as ([a2 fx2] & Hd & H). apply rbind_Ok in H as (? & _ & H). apply rbind_Ok in H as (? & _ & H).
      injection H as <- <-. cbn [fst snd] in *. right.
      unfold update_sync_status in Hu. apply rbind_Ok in Hu as (? & _ & Hu). injection Hu as <-.
      pose proof (interval_goes _ _ _ _ _ _ _ _ Hd) as (_ & _ & _ & Hsy).
      eexists pr, n2, _, _, fx2. split_and!; [by right|exact Ht| | | |reflexivity|exact Hd]; done.
    - cbn [andb] in H.
      apply rbind_Ok in H as (s & Hhs & H).
      destruct (s_validators s) eqn:Hvs; [injection H as <- <-; left; split_and!; try done; right; by exists s|].
      apply rbind_Ok in H as (a1 & Hu & H). apply rbind_Ok in H as (pr & _ & H). apply rbind_Ok in H as (n2 & Ht & H).
      apply rbind_Ok in H as ([a2 fx2] & Hd & H). apply rbind_Ok in H as (? & _ & H). apply rbind_Ok in H as (? & _ & H).
      injection H as <- <-. cbn [fst snd] in *. right.
      unfold update_sync_status in Hu. apply rbind_Ok in Hu as (? & _ & Hu). injection Hu as <-.
      pose proof (interval_goes _ _ _ _ _ _ _ _ Hd) as (_ & _ & _ & Hsy).
      eexists pr, n2, _, _, fx2. split_and!; [left; lia|exact Ht| | | |reflexivity|exact Hd]; done.
  Qed.

  Lemma interval_cases i :
    (interval_of i = BlockPublication /\ i mod 5 = 0) \/ (interval_of i = AttestationProduction /\ i mod 5 = 1) \/
    (interval_of i = Aggregation /\ i mod 5 = 2) \/ (interval_of i = SafeTargetUpdate /\ i mod 5 = 3) \/
    (interval_of i = EndOfSlot /\ i mod 5 = 4).
  Proof using. clear Hgood Hvals.
    unfold interval_of. change INTERVALS_PER_SLOT with 5. pose proof (N.mod_lt i 5 ltac:(lia)) as Hlt.
    generalize dependent (i mod 5). intros y Hlt.
    destruct (N.eqb_spec y 0); [auto|]. destruct (N.eqb_spec y 1); [auto|].
    destruct (N.eqb_spec y 2); [auto|]. destruct (N.eqb_spec y 3); [auto 6|]. right; right; right; right. split; [done|lia].
  Qed.

  (** The duty of one interval. *)
  Lemma produce_facts W a slot agg a' fx : produce_attestations E C W a slot agg = Ok (a', fx) ->
    exists data, produce_attestation_data (nd_db (ac_node a')) slot = Ok data /\
      votes_out fx = signed_votes W data (cf_own C) /\ blocks_out fx = [] /\
      nd_db (ac_node a') = nd_db (ac_node a).
  Proof using. clear Hgood Hvals.
    unfold produce_attestations. intros H. apply rbind_Ok in H as (data & Hd & H).
    apply rbind_Ok in H as ([n1 fx1] & H1 & H). injection H as <- <-. cbn [fst snd ac_node with_node].
    apply votes_pub in H1 as (V & B & D). exists data. rewrite D. done.
  Qed.
  Lemma propose_facts W a slot v a' fx : reach (ac_node a) -> propose_block E W a slot v = Ok (a', fx) ->
    exists n1 h, get_proposal_head E (ac_node a) slot = Ok (n1, h) /\ votes_out fx = [] /\
      5 * slot <= db_time (nd_db (ac_node a')) /\
      (blocks_out fx = [] \/ exists sb, blocks_out fx = [sb] /\ w_build W n1 slot v = Some sb).
  Proof.
    intros Hr H. pose proof (propose_goes _ _ _ _ _ _ _ H) as [_ _].
    unfold propose_block in H. apply rbind_Ok in H as ([n1 h] & H1 & H). cbn [fst] in H. exists n1, h.
    assert (5 * slot <= db_time (nd_db n1)) as Ht.
    { unfold get_proposal_head in H1. apply rbind_Ok in H1 as (m1 & T1 & H1). apply rbind_Ok in H1 as (m2 & T2 & H1).
      injection H1 as <- _. rewrite (accept_time E _ _ T2). apply C35_clock_pf in T1. rewrite T1.
      change MILLISECONDS_PER_SLOT with 4000.
      replace (db_gt (nd_db (ac_node a)) * 1000 + slot * 4000 - db_gt (nd_db (ac_node a)) * 1000) with (5 * slot * 800) by lia.
      rewrite N.div_mul by lia. lia. }
    assert (reach n1) as Hr1.
    { eapply reach_run; [exact Hr|]. apply run_one. instantiate (1 := ev_propose slot). cbn [node_step]. by rewrite H1. }
    destruct (no_pub_out _ (no_pub_events (diff_and_emit (nd_db (ac_node a)) (nd_db n1) slot))) as [Ve Be].
    destruct (w_build W n1 slot v) as [sb|] eqn:Hb.
    2:{ injection H as <- <-. split_and!; try done. by left. }
    destruct (import_and_emit E W n1 sb) as [[n2 fx2]|e|] eqn:Hpb; [| |done].
    2:{ injection H as <- <-. split_and!; try done. by left. }
    injection H as <- <-. cbn [ac_node with_node].
    pose proof (import_goes _ _ _ _ _ _ Hpb) as G. destruct (time_goes _ _ _ Hr1 G) as [Ht2 _].
    apply import_fx in Hpb as [P _]. apply no_pub_out in P as [V2 B2]. split_and!; [done| |lia|].
    - by rewrite !votes_out_app, Ve, V2.
    - right. exists sb. split; [|done]. by rewrite !blocks_out_app, Be, B2.
  Qed.

  (** One message: what it publishes and what the clock says before and after. *)
  Lemma step_out W a m a' fx : reach (ac_node a) -> actor_step E C W a m = Ok (a', fx) ->
    let i := wall_interval W a in
    reach (ac_node a') /\ db_time (nd_db (ac_node a)) <= db_time (nd_db (ac_node a')) /\
    ((votes_out fx = [] /\ blocks_out fx = []) \/
     (m = m_tick /\ db_time (nd_db (ac_node a)) < i /\ i mod 5 = 1 /\ i <= db_time (nd_db (ac_node a')) /\
      blocks_out fx = [] /\ exists data, produce_attestation_data (nd_db (ac_node a')) (i / 5) = Ok data /\
        votes_out fx = signed_votes W data (cf_own C)) \/
     (m = m_tick /\ db_time (nd_db (ac_node a)) < i /\ i mod 5 = 4 /\ i < db_time (nd_db (ac_node a')) /\
      votes_out fx = [] /\ exists sb n1 v, blocks_out fx = [sb] /\ w_build W n1 (i / 5 + 1) v = Some sb)).
  Proof.
    cbn zeta. intros Hr H. pose proof (step_goes _ _ _ _ _ _ _ H) as G. destruct (time_goes _ _ _ Hr G) as [Ht _].
    split; [by eapply reach_goes|]. split; [done|].
    assert (m <> m_tick -> votes_out fx = [] /\ blocks_out fx = []) as Hnt.
    { intros Hm. apply step_facts in H as (H & _). apply no_pub_out. intros x Hx Hp. destruct (H x Hx Hp). done. }
    destruct m; try (left; by apply Hnt). clear Hnt G.
    cbn [actor_step] in H. apply tick_detail in H as [(-> & -> & _)|(hp & n2 & a2 & ev & fx2 & Htime & Hon & Hn2 & _ & _ & -> & Hd)]; [by left|].
    set (i := wall_interval W a) in *.
    destruct (no_pub_out _ (no_pub_events ev)) as [Ve Be].
    pose proof (C35_clock_pf _ _ _ _ _ Hon) as Hclk. fold (wall_interval W a) in Hclk. fold i in Hclk.
    assert (reach n2) as Hr2.
    { eapply reach_run; [exact Hr|]. apply run_one. instantiate (1 := ev_tick (w_now W) hp). exact Hon. }
    rewrite votes_out_app, blocks_out_app, Ve, Be. cbn [app].
    pose proof (N.div_mod i 5 ltac:(lia)) as Hdm.
    destruct (interval_cases i) as [[Hi Hm]|[[Hi Hm]|[[Hi Hm]|[[Hi Hm]|[Hi Hm]]]]]; rewrite Hi in Hd; cbn [interval_duty] in Hd.
    - injection Hd as <- <-. by left.
    - destruct (duties_allowed C a2); [|injection Hd as <- <-; by left].
      apply produce_facts in Hd as (data & D1 & D2 & D3 & D4). right; left. split_and!; try done; [lia| |by exists data].
      rewrite D4, Hn2, Hclk. lia.
    - destruct (_ && _); [|injection Hd as <- <-; by left]. apply session_step in Hd as [_ P]. left. by apply no_pub_out.
    - injection Hd as <- <-. by left.
    - apply rbind_Ok in Hd as (p & _ & Hd). destruct p as [v|]; [|injection Hd as <- <-; by left].
      destruct (duties_allowed C a2); [|injection Hd as <- <-; by left].
      apply propose_facts in Hd as (n1 & h & _ & V & T & B); [|by rewrite Hn2].
      destruct B as [B|(sb & B & Hb)]; [by left|]. right; right. split_and!; try done; [lia|lia|]. by exists sb, n1, v.
  Qed.
  Lemma produced_slot d slot data : produce_attestation_data d slot = Ok data -> ad_slot data = slot.
  Proof using. clear Hgood Hvals.
    unfold produce_attestation_data. intros H. apply rbind_Ok in H as ([s|] & _ & H); [|done].
    destruct (get_header _ _); [|done]. apply rbind_Ok in H as (t & _ & H). by injection H as <-.
  Qed.

  (** ** C65 *)
  Lemma life_reach a l a' : reach (ac_node a) -> lifetime E C a l a' -> reach (ac_node a').
  Proof.
    intros Hr. induction 1 as [|l a1 W m a2 fx _ IH HW Hs|l a1 _ IH]; [done| |].
    - by apply (step_out _ _ _ _ _ IH) in Hs as [? _].
    - eapply reach_run; [exact IH|]. cbn [ac_node start_actor]. apply run_one. by instantiate (1 := ev_restart).
  Qed.
  Definition vote_key (sa : SignedAtt) : N * N := (sa_validator sa, ad_slot (sa_data sa)).
  Lemma sent_snoc l x : sent (l ++ [x]) = sent l ++ x.2.
  Proof using. unfold sent. rewrite map_app, concat_app. cbn. by rewrite app_nil_r. Qed.

  Lemma life_out a l a' : reach (ac_node a) -> NoDup (cf_own C) -> lifetime E C a l a' ->
    NoDup (map vote_key (votes_out (sent l))) /\
    (forall sa, sa ∈ votes_out (sent l) -> 5 * ad_slot (sa_data sa) < db_time (nd_db (ac_node a'))) /\
    (Forall (fun x => builds_slot x.1.1.2) l ->
     NoDup (map (fun sb => b_slot (sb_block sb)) (blocks_out (sent l))) /\
     (forall sb, sb ∈ blocks_out (sent l) -> 5 * b_slot (sb_block sb) <= db_time (nd_db (ac_node a')))).
  Proof.
    intros Hr Hown. induction 1 as [|l a1 W m a2 fx Hl IH HW Hs|l a1 _ IH]; [|clear HW|exact IH].
    { cbn. split_and!; try constructor; try (intros ? Hx; by apply elem_of_nil in Hx); try constructor;
        intros ? Hx; by apply elem_of_nil in Hx. }
    destruct IH as (IV & IT & IB). pose proof (life_reach _ _ _ Hr Hl) as Hr1.
    apply (step_out _ _ _ _ _ Hr1) in Hs as (_ & Hmono & Hcase). rewrite sent_snoc. cbn [snd].
    rewrite votes_out_app, blocks_out_app, !map_app.
    set (i := wall_interval W a1) in *. pose proof (N.div_mod i 5 ltac:(lia)) as Hdm.
    destruct Hcase as [[V B]|[(_ & Hlt & Hm & Hle & B & data & Hd & V)|(_ & Hlt & Hm & Hle & V & sb & n1 & v & B & Hb)]];
      rewrite V, B; cbn [map]; rewrite ?app_nil_r.
    - split_and!; [done|intros sa Hsa; specialize (IT sa Hsa); lia|]. intros HF. apply Forall_app in HF as [HF _].
      destruct (IB HF) as [H1 H2]. split; [done|]. intros sb Hsb. specialize (H2 sb Hsb). lia.
    - assert (forall sa, sa ∈ signed_votes W data (cf_own C) -> sa_data sa = data) as Hdat.
      { intros sa Hsa. apply elem_of_list_omap in Hsa as (v & _ & Hv). destruct (w_sign W v data); [|done]. by injection Hv as <-. }
      pose proof (produced_slot _ _ _ Hd) as Hps. split_and!.
      + apply NoDup_app. split_and!; [done| |].
        * intros [v s] H1 H2. apply elem_of_list_fmap in H1 as (x & Hx & H1). apply elem_of_list_fmap in H2 as (y & Hy & H2).
          specialize (IT x H1). rewrite Hx in Hy. unfold vote_key in Hy. injection Hy as _ Hsl. rewrite (Hdat y H2), Hps in Hsl. lia.
        * clear -Hown. unfold signed_votes. induction (cf_own C) as [|v vs IH]; [constructor|].
          apply NoDup_cons in Hown as [Hv Hown]. cbn [omap list_omap].
          destruct (w_sign W v data) as [sig|]; cbn [fmap option_fmap option_map map]; [|by apply IH].
          constructor; [|by apply IH]. intros Hin. apply elem_of_list_fmap in Hin as (x & Hx & Hin).
          apply elem_of_list_omap in Hin as (u & Hu & Hux). destruct (w_sign W u data); [|done]. injection Hux as <-.
          unfold vote_key in Hx. cbn in Hx. injection Hx as ->. done.
      + intros sa Hsa. apply elem_of_app in Hsa as [Hsa|Hsa]; [specialize (IT sa Hsa); lia|].
        rewrite (Hdat sa Hsa), Hps. lia.
      + intros HF. apply Forall_app in HF as [HF _]. destruct (IB HF) as [H1 H2]. split; [done|].
        intros sb Hsb. specialize (H2 sb Hsb). lia.
    - split_and!; [done|intros sa Hsa; specialize (IT sa Hsa); lia|]. intros HF. apply Forall_app in HF as [HF HW].
      destruct (IB HF) as [H1 H2]. apply Forall_inv in HW. cbn in HW. pose proof (HW _ _ _ _ Hb) as Hsl. split.
      + apply NoDup_app. split_and!; [done| |apply NoDup_singleton].
        intros s Hs1 Hs2. apply elem_of_list_singleton in Hs2 as ->. apply elem_of_list_fmap in Hs1 as (x & Hx & Hs1).
        specialize (H2 x Hs1). lia.
      + intros x Hx. apply elem_of_app in Hx as [Hx|Hx]; [specialize (H2 x Hx); lia|].
        apply elem_of_list_singleton in Hx as ->. lia.
  Qed.
End Duties.
