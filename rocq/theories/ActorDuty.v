(** Actor proofs: duties and sync status (C40), aggregation sessions (C55, C56),
    discarding (C42). *)
From Verif Require Export ActorEvents.

Lemma group_exists slot b m : 0 < m -> m <= max_group_count_for_slot slot b ->
  exists k e, bf_data b !! k = Some e /\ ad_slot (ge_data e) = slot /\ m <= ge_size e.
Proof.
  unfold max_group_count_for_slot. generalize (bf_data b) as d. clear b. intros d Hm.
  apply (map_fold_ind (fun acc (d : gmap H256 GossipEntry) => m <= acc -> exists k e, d !! k = Some e /\ ad_slot (ge_data e) = slot /\ m <= ge_size e)).
  - lia.
  - intros k e d' acc Hnone IH Hle.
    assert (m <= acc -> exists k0 e0, <[k := e]> d' !! k0 = Some e0 /\ ad_slot (ge_data e0) = slot /\ m <= ge_size e0) as Hold.
    { intros H. destruct (IH H) as (k0 & e0 & H0 & H1). exists k0, e0. split; [|done].
      rewrite lookup_insert_ne; [done|]. intros ->. congruence. }
    destruct (N.eqb_spec (ad_slot (ge_data e)) slot) as [Heq|Hne]; [|by apply Hold].
    destruct (decide (m <= acc)) as [H|H]; [by apply Hold|]. exists k, e. split; [apply lookup_insert|]. split; [done|lia].
Qed.

Lemma interval_agg x : interval_of x = Aggregation -> x mod 5 = 2.
Proof.
  unfold interval_of. change INTERVALS_PER_SLOT with 5. generalize (x mod 5) as y. intros y.
  destruct (N.eqb_spec y 0); [done|]. destruct (N.eqb_spec y 1); [done|].
  destruct (N.eqb_spec y 2); [done|]. by destruct (N.eqb_spec y 3).
Qed.

Section Duty.
  Context (E : Env) (C : Config).

  (** The gate as seen in the effects. *)
  Definition no_pub (fx : list Effect) : Prop := forall x, x ∈ fx -> ~ published_vote_or_block x.
  Lemma no_pub_app l l' : no_pub l -> no_pub l' -> no_pub (l ++ l').
  Proof. intros H1 H2 x Hx. apply elem_of_app in Hx as [Hx|Hx]; [by apply H1|by apply H2]. Qed.
  Lemma no_pub_events l : no_pub (map fx_event l).
  Proof. intros x Hx. apply elem_of_list_fmap in Hx as (e & -> & _). by intros [[? ?]|[? ?]]. Qed.
  Lemma no_pub_nil : no_pub [].
  Proof. intros x Hx. by apply elem_of_nil in Hx. Qed.
  Lemma no_pub_one x : ~ published_vote_or_block x -> no_pub [x].
  Proof. intros H y Hy. by apply elem_of_list_singleton in Hy as ->. Qed.
  Hint Resolve no_pub_app no_pub_events no_pub_nil : core.

  Definition no_ses (fx : list Effect) : Prop := sessions fx = [].
  Lemma sessions_app l l' : sessions (l ++ l') = sessions l ++ sessions l'.
  Proof. apply omap_app. Qed.
  Lemma no_ses_app l l' : no_ses l -> no_ses l' -> no_ses (l ++ l').
  Proof. unfold no_ses. rewrite sessions_app. by intros -> ->. Qed.
  Lemma no_ses_events l : no_ses (map fx_event l).
  Proof. unfold no_ses. induction l; [done|]. exact IHl. Qed.

  Lemma import_fx W n sb n' fx : import_and_emit E W n sb = Ok (n', fx) -> no_pub fx /\ no_ses fx.
  Proof.
    unfold import_and_emit. intros H. apply rbind_Ok in H as (n1 & _ & H). apply rbind_Ok in H as (? & _ & H).
    injection H as _ <-. split.
    - apply no_pub_app; [|done]. destruct (negb _); [|done]. apply (no_pub_events [CeBlock _ _]).
    - apply no_ses_app; [|apply no_ses_events]. by destruct (negb _).
  Qed.
  Lemma reagg_fx W a sb a' fx : run_reaggregate E C W a sb = Ok (a', fx) -> no_pub fx /\ no_ses fx.
  Proof.
    unfold run_reaggregate. destruct (duties_allowed C a); intros H.
    - apply rbind_Ok in H as (n & _ & H). injection H as _ <-. destruct (w_aggregator W); [|done]. split.
      + intros x Hx. apply elem_of_list_fmap in Hx as (e & -> & _). by intros [[? ?]|[? ?]].
      + unfold no_ses. induction (w_reagg _ _ _); [done|]. exact IHl.
    - injection H as _ <-. done.
  Qed.
  Lemma pop_fx W a sb a' q fx : process_or_pend_block E C W a sb = Ok (a', q, fx) -> no_pub fx /\ no_ses fx.
  Proof.
    unfold process_or_pend_block. intros H.
    destruct (_ <=? _); [apply rbind_Ok in H as (? & _ & H); injection H as _ _ <-; done|].
    destruct (_ <? _); [apply rbind_Ok in H as (? & _ & H); injection H as _ _ <-; done|].
    destruct (negb _).
    - apply rbind_Ok in H as (m & _ & H). apply rbind_Ok in H as ([a1 [sb'|r]] & _ & H); injection H as _ _ <-; [done|].
      split; [|done]. apply no_pub_one. by intros [[? ?]|[? ?]].
    - destruct (import_and_emit E W (ac_node a) sb) as [[n' fx1]|e|] eqn:Him; [| |done].
      + apply rbind_Ok in H as ([a1 fx2] & Hre & H). injection H as _ _ <-.
        apply import_fx in Him as [P1 S1]. apply reagg_fx in Hre as [P2 S2]. split; [by apply no_pub_app|by apply no_ses_app].
      + injection H as _ _ <-. done.
  Qed.
  Lemma loop_fx fuel W a q a' fx : block_loop E C fuel W a q = Ok (a', fx) -> no_pub fx /\ no_ses fx.
  Proof.
    revert a q fx. induction fuel as [|f IH]; intros a [|sb q] fx H; cbn [block_loop] in H; try done;
      try (injection H as _ <-; done).
    apply rbind_Ok in H as ([[a1 q1] fx1] & H1 & H). apply rbind_Ok in H as ([a2 fx2] & H2 & H).
    injection H as -> <-. cbn [fst snd] in *. apply pop_fx in H1 as [P1 S1]. apply IH in H2 as [P2 S2].
    split; [by apply no_pub_app|by apply no_ses_app].
  Qed.

  (** What starting a session does. *)
  Definition ses_step (slot : N) (a a' : Actor) (fx : list Effect) : Prop :=
    (ac_session a' = Some slot /\ sessions fx = [slot]) \/ (ac_session a' = None /\ sessions fx = []).
  Lemma session_step W a slot a' fx : start_aggregation_session C W a slot = Ok (a', fx) ->
    ses_step slot a a' fx /\ no_pub fx.
  Proof.
    unfold start_aggregation_session. intros H. apply rbind_Ok in H as (p & _ & H).
    destruct (w_jobs _ _ _ _); injection H as <- <-; (split; [|first [done|apply no_pub_one; by intros [[? ?]|[? ?]]]]).
    - by left.
    - by right.
  Qed.

  (** The conditions of an early start. *)
  Definition early_start (W : World) (a : Actor) (slot : N) : Prop :=
    let genesis := db_gt (nd_db (ac_node a)) * 1000 in
    w_aggregator W = true /\ genesis <= w_now W /\
    1000 <= (w_now W - genesis) mod 4000 < 1600 /\ slot = (w_now W - genesis) / 4000 /\
    exists s m k e, head_state (ac_node a) = Ok s /\ min_group_sigs C (lenN (s_validators s)) = m /\ 0 < m /\
      bf_data (nd_gossip (ac_node a)) !! k = Some e /\ ad_slot (ge_data e) = slot /\ m <= ge_size e.
  Lemma early_step W a a' fx : maybe_start_early_aggregation C W a = Ok (a', fx) ->
    no_pub fx /\
    ((a' = a /\ fx = []) \/
     exists slot, early_start W a slot /\ ac_session a <> Some slot /\ ses_step slot a a' fx).
  Proof.
    unfold maybe_start_early_aggregation. intros H.
    destruct (w_aggregator W) eqn:Hag; cbn [negb] in H; [|by injection H as <- <-; auto].
    destruct (N.ltb_spec (w_now W) (db_gt (nd_db (ac_node a)) * 1000)) as [Hlt|Hge]; [by injection H as <- <-; auto|].
    change MILLISECONDS_PER_SLOT with 4000 in H. change (2 * MILLISECONDS_PER_INTERVAL) with 1600 in H.
    change (1600 - EARLY_AGGREGATION_WINDOW) with 1000 in H.
    set (ms := w_now W - _) in *.
    destruct (N.ltb_spec (ms mod 4000) 1000) as [H1|H1]; cbn [orb] in H; [by injection H as <- <-; auto|].
    destruct (N.leb_spec 1600 (ms mod 4000)) as [H2|H2]; [by injection H as <- <-; auto|].
    case_bool_decide as Hses; [by injection H as <- <-; auto|].
    apply rbind_Ok in H as (s & Hs & H).
    destruct (N.eqb_spec (min_group_sigs C (lenN (s_validators s))) 0) as [Hz|Hz]; cbn [orb] in H; [by injection H as <- <-; auto|].
    destruct (N.ltb_spec (max_group_count_for_slot (ms / 4000) (nd_gossip (ac_node a))) (min_group_sigs C (lenN (s_validators s)))) as [H3|H3];
      [by injection H as <- <-; auto|].
    apply session_step in H as [H Hp]. split; [done|]. right. exists (ms / 4000). split; [|done].
    split_and!; try done. apply group_exists in H3; [|lia]. destruct H3 as (k & e & G1 & G2 & G3).
    eexists _, _, k, e. split_and!; try done. lia.
  Qed.

  Lemma votes_fx W n data agg vs n' fx : publish_votes E W n data agg vs = Ok (n', fx) -> no_ses fx.
  Proof.
    revert n fx. induction vs as [|v vs IH]; intros n fx H; cbn [publish_votes] in H; [by injection H as _ <-|].
    destruct (w_sign W v data) as [sig|]; [|by eapply IH]. apply rbind_Ok in H as (n1 & _ & H).
    apply rbind_Ok in H as ([n2 fx2] & H2 & H). injection H as -> <-. apply IH in H2. exact H2.
  Qed.

  (** One message: publications, sync status, session. *)
  Definition tick_starts (W : World) (a : Actor) (slot : N) : Prop :=
    let ms := w_now W - db_gt (nd_db (ac_node a)) * 1000 in
    w_aggregator W = true /\ slot = ms / 4000 /\ (ms / 800) mod 5 = 2.
  Lemma interval_facts W a slot i a' fx : interval_duty E C W a slot i = Ok (a', fx) ->
    (duties_allowed C a = false -> no_pub fx) /\
    ((ac_session a' = ac_session a /\ no_ses fx) \/
     (i = Aggregation /\ w_aggregator W = true /\ ac_session a <> Some slot /\ ses_step slot a a' fx)).
  Proof.
    unfold interval_duty. intros H. destruct i.
    - injection H as <- <-. split; [done|by left].
    - destruct (duties_allowed C a); [|injection H as <- <-; split; [done|by left]].
      split; [done|]. left. unfold produce_attestations in H. apply rbind_Ok in H as (data & _ & H).
      apply rbind_Ok in H as ([n1 fx1] & H1 & H). injection H as <- <-. split; [done|]. by apply votes_fx in H1.
    - destruct (w_aggregator W); cbn [andb] in H; [|injection H as <- <-; split; [done|by left]].
      case_bool_decide as Hs; cbn [negb] in H; [injection H as <- <-; split; [done|by left]|].
      apply session_step in H as [H Hp]. split; [done|]. by right.
    - injection H as <- <-. split; [done|by left].
    - apply rbind_Ok in H as (p & _ & H). destruct p as [v|]; [|injection H as <- <-; split; [done|by left]].
      destruct (duties_allowed C a); [|injection H as <- <-; split; [done|by left]].
      split; [done|]. left. unfold propose_block in H. apply rbind_Ok in H as ([n1 h] & H1 & H). cbn [fst] in H.
      destruct (w_build W n1 (slot + 1) v) as [sb|]; [|injection H as <- <-; split; [done|apply no_ses_events]].
      destruct (import_and_emit E W n1 sb) as [[n2 fx2]|e|] eqn:Hpb; [|injection H as <- <-; split; [done|apply no_ses_events]|done].
      injection H as <- <-. split; [done|]. apply no_ses_app; [apply no_ses_events|].
      apply import_fx in Hpb as [_ Hs]. by apply no_ses_app.
  Qed.

  (** The status a tick computes. *)
  Definition observed (W : World) (a : Actor) : bool -> Prop := fun s =>
    exists hslot, slot_of_root (ac_node a) (db_head (nd_db (ac_node a))) = Ok hslot /\
      s = sync_update (ac_syncing a) (wall_slot (ac_node a) (w_now W)) hslot
            (default hslot (max_live_chain_slot (tab (ac_node a)))).
  Lemma tick_facts W a a' fx : actor_on_tick E C W a = Ok (a', fx) ->
    (a' = a /\ fx = []) \/
    (observed W a (ac_syncing a') /\
     (cf_gate C = true -> ac_syncing a' = true -> no_pub fx) /\
     ((ac_session a' = ac_session a /\ no_ses fx) \/
      exists slot, tick_starts W a slot /\ ac_session a <> Some slot /\ ses_step slot a a' fx)).
  Proof.
    unfold actor_on_tick. intros H. destruct (_ && _); [injection H as <- <-; by left|].
    apply rbind_Ok in H as (s & _ & H). destruct (s_validators s); [injection H as <- <-; by left|].
    apply rbind_Ok in H as (a1 & Hu & H). apply rbind_Ok in H as (pr & _ & H). apply rbind_Ok in H as (n2 & Ht & H).
    apply rbind_Ok in H as ([a2 fx2] & Hd & H). apply rbind_Ok in H as (? & _ & H). apply rbind_Ok in H as (? & _ & H).
    injection H as <- <-. cbn [fst snd] in *. right.
    unfold update_sync_status in Hu. apply rbind_Ok in Hu as (hslot & Hh & Hu). injection Hu as <-.
    pose proof (interval_goes _ _ _ _ _ _ _ _ Hd) as (_ & _ & _ & Hsy). cbn [ac_syncing with_node] in Hsy.
    apply interval_facts in Hd as [Hp Hs]. cbn [ac_session with_node] in Hs. split_and!.
    - exists hslot. split; [done|]. by rewrite Hsy.
    - intros Hg Hss. apply no_pub_app; [done|]. apply Hp. unfold duties_allowed. cbn [ac_syncing with_node].
      rewrite <- Hsy, Hss, Hg. done.
    - destruct Hs as [[H1 H2]|(Hi & Hag & Hne & Hst)].
      + left. split; [done|]. apply no_ses_app; [apply no_ses_events|done].
      + right. eexists. split; [split; [done|]; split; [reflexivity|]|].
        { by apply interval_agg in Hi. }
        split; [done|]. destruct Hst as [[Hx Hy]|[Hx Hy]]; [left|right]; (split; [done|]); rewrite sessions_app, Hy;
          by rewrite (no_ses_events _ : sessions _ = []).
  Qed.

  Lemma step_facts W a m a' fx : actor_step E C W a m = Ok (a', fx) ->
    (* publications *)
    (forall x, x ∈ fx -> published_vote_or_block x -> m = m_tick /\ (cf_gate C = false \/ ac_syncing a' = false)) /\
    (* status *)
    (ac_syncing a' = ac_syncing a \/ m = m_tick /\ observed W a (ac_syncing a')) /\
    (* session *)
    ((ac_session a' = ac_session a /\ sessions fx = []) \/
     exists slot, ac_session a <> Some slot /\ ses_step slot a a' fx /\ slot = wall_slot (ac_node a) (w_now W) /\
       ((m = m_tick /\ tick_starts W a slot) \/
        (exists a1, ac_syncing a1 = ac_syncing a /\ ac_session a1 = ac_session a /\ nd_db (ac_node a1) = nd_db (ac_node a) /\
           (a1 = a /\ m = m_early_check \/ exists sa n1, m = m_attestation sa /\ a1 = with_node a n1 /\
              (on_gossip_attestation E (ac_node a) sa (w_aggregator W) = Ok n1 \/ n1 = ac_node a /\ exists er, on_gossip_attestation E (ac_node a) sa (w_aggregator W) = Err er)) /\
           early_start W a1 slot))).
  Proof.
    unfold actor_step. intros H. destruct m as [|sb g|sa|sg| |id data p parts keys].
    - apply tick_facts in H as [[-> ->]|(Ho & Hp & Hs)].
      { split_and!; [|by left|by left]. intros x Hx. by apply elem_of_nil in Hx. }
      split_and!.
      + intros x Hx Hpub. split; [done|]. destruct (cf_gate C) eqn:Hg; [right|by left].
        destruct (ac_syncing a') eqn:Hsy; [|done]. by destruct (Hp eq_refl eq_refl x Hx).
      + by right.
      + destruct Hs as [[H1 H2]|(slot & H1 & H2 & H3)]; [by left|]. right. exists slot. split_and!; [done|done| |by left].
        by destruct H1 as (_ & -> & _).
    - apply rbind_Ok in H as ([a1 fx1] & H1 & H). injection H as <- <-. cbn [fst snd].
      pose proof (on_block_goes _ _ _ _ _ _ _ H1) as (_ & Hsy & Hse).
      unfold actor_on_block in H1. apply rbind_Ok in H1 as ([a2 fx2] & H1 & H2).
      apply rbind_Ok in H2 as (d & _ & H2). injection H2 as <- <-. cbn [fst snd] in *.
      apply loop_fx in H1 as [Hp Hs]. split_and!.
      + intros x Hx Hpub. exfalso. revert Hpub. apply elem_of_app in Hx as [Hx|Hx]; [|by apply Hp].
        destruct g; [|by apply elem_of_nil in Hx]. apply elem_of_list_singleton in Hx as ->. by intros [[? ?]|[? ?]].
      + by left.
      + left. split; [done|]. rewrite sessions_app, (Hs : sessions _ = []). by destruct g.
    - apply rbind_Ok in H as ([n1 fx1] & H1 & H). cbn [fst snd] in H.
      assert (no_pub fx1 /\ no_ses fx1 /\ (on_gossip_attestation E (ac_node a) sa (w_aggregator W) = Ok n1 \/ n1 = ac_node a /\ exists er, on_gossip_attestation E (ac_node a) sa (w_aggregator W) = Err er)) as (P1 & S1 & Hor).
      { destruct (on_gossip_attestation E (ac_node a) sa (w_aggregator W)) as [n'|e|]; [| |done]; injection H1 as <- <-.
        - split_and!; [|done|by left]. apply no_pub_one. by intros [[? ?]|[? ?]].
        - split_and!; [done|done|right; eauto]. }
      assert (nd_db n1 = nd_db (ac_node a)) as Hdb.
      { destruct Hor as [Ho|[-> _]]; [|done]. unfold on_gossip_attestation in Ho.
        apply rbind_Ok in Ho as (? & _ & Ho). apply rbind_Ok in Ho as (o & _ & Ho). destruct o as [ts|]; [|done].
        destruct (getN _ _) as [v|]; [|done]. destruct (negb (e_key_ok E _)); [done|].
        destruct (_ <=? _) in Ho; [done|]. destruct (negb _) in Ho; [done|]. destruct (negb _) in Ho; [done|].
        destruct (w_aggregator W); [|by injection Ho as <-].
        destruct (gossip_insert _ _ _ _ _) as [gg|?|]; cbn in Ho; [|done|done]. by injection Ho as <-. }
      destruct (_ =? _) in H.
      2:{ injection H as <- <-. split_and!; [|by left|left; done]. intros x Hx Hpub. by destruct (P1 x Hx). }
      apply rbind_Ok in H as ([a2 fx2] & H2 & H). injection H as <- <-. cbn [fst snd] in *.
      pose proof (early_goes _ _ _ _ _ H2) as (_ & _ & _ & Hsy & _). cbn [ac_syncing with_node] in Hsy.
      apply early_step in H2 as [P2 Hs2]. split_and!.
      + intros x Hx Hpub. exfalso. revert Hpub. by apply (no_pub_app _ _ P1 P2).
      + by left.
      + destruct Hs2 as [[-> ->]|(slot & Hes & Hne & Hst)].
        { left. split; [done|]. rewrite app_nil_r. exact S1. }
        right. exists slot. split_and!; [done| | |].
        * destruct Hst as [[Hx Hy]|[Hx Hy]]; [left|right]; (split; [done|]); by rewrite sessions_app, Hy, (S1 : sessions _ = []).
        * destruct Hes as (_ & _ & _ & -> & _). unfold wall_slot. cbn [ac_node with_node]. by rewrite Hdb.
        * right. exists (with_node a n1). split_and!; [done|done|done| |done]. right. by exists sa, n1.
    - destruct (on_gossip_aggregated_attestation E (ac_node a) sg) as [n'|e|]; [| |done]; injection H as <- <-.
      + split_and!; [|by left|by left]. intros x Hx. apply elem_of_list_singleton in Hx as ->. by intros [[? ?]|[? ?]].
      + split_and!; [|by left|by left]. intros x Hx. by apply elem_of_nil in Hx.
    - pose proof (early_goes _ _ _ _ _ H) as (_ & _ & _ & Hsy & _).
      apply early_step in H as [P2 Hs2]. split_and!.
      + intros x Hx Hpub. by destruct (P2 x Hx).
      + by left.
      + destruct Hs2 as [[-> ->]|(slot & Hes & Hne & Hst)]; [by left|]. right. exists slot.
        split_and!; [done|done|by destruct Hes as (_ & _ & _ & -> & _)|]. right. exists a. split_and!; try done. by left.
    - case_bool_decide; [|injection H as <- <-; split_and!; [|by left|by left]; intros x Hx; by apply elem_of_nil in Hx].
      apply rbind_Ok in H as (n' & H1 & H). injection H as <- <-. split_and!; [|by left|by left].
      intros x Hx. apply elem_of_cons in Hx as [->|Hx]; [by intros [[? ?]|[? ?]]|].
      apply elem_of_list_singleton in Hx as ->. by intros [[? ?]|[? ?]].
  Qed.
End Duty.
