(** Actor proofs over whole histories: duties and sync status (C40), discarding
    (C42), sessions (C55, C56), panics (C60). *)
From Verif Require Export ActorDuty ActorLost.

Section Runs.
  Context (E : Env) (C : Config).

  Lemma effects_snoc tr W m fx : effects (tr ++ [(W, m, fx)]) = effects tr ++ fx.
  Proof. unfold effects. rewrite map_app, concat_app. cbn. by rewrite app_nil_r. Qed.

  (** ** C40 *)
  Lemma C40_gate_pf a tr a' i W m fx x : actor_run E C a tr a' ->
    tr !! i = Some (W, m, fx) -> x ∈ fx -> published_vote_or_block x ->
    m = m_tick /\ exists a1 a2, actor_run E C a (take i tr) a1 /\ actor_step E C W a1 m = Ok (a2, fx) /\
      (cf_gate C = false \/ ac_syncing a2 = false).
  Proof.
    intros Hr Hi Hx Hp.
    assert (exists a1 a2, actor_run E C a (take i tr) a1 /\ actor_step E C W a1 m = Ok (a2, fx)) as (a1 & a2 & H1 & H2).
    { clear Hp Hx. induction Hr as [|tr a1 W1 m1 a2 fx1 H IH HW Hs]; [done|].
      destruct (decide (i < length tr)%nat) as [Hlt|Hge].
      - rewrite lookup_app_l in Hi by done. rewrite take_app_le by lia. by apply IH.
      - rewrite lookup_app_r in Hi by lia. assert (i - length tr = 0)%nat as Hz.
        { apply lookup_lt_Some in Hi. cbn in Hi. lia. }
        rewrite Hz in Hi. injection Hi as -> -> ->. exists a1, a2.
        replace i with (length tr) by lia. by rewrite take_app. }
    pose proof (step_facts E C _ _ _ _ _ H2) as (Hf & _). destruct (Hf x Hx Hp) as [-> Hg]. split; [done|]. eauto 6.
  Qed.

  Lemma C40_status_pf W a m a' fx : actor_step E C W a m = Ok (a', fx) ->
    ac_syncing a' = ac_syncing a \/
    (m = m_tick /\ exists hslot, slot_of_root (ac_node a) (db_head (nd_db (ac_node a))) = Ok hslot /\
       ac_syncing a' = sync_update (ac_syncing a) (wall_slot (ac_node a) (w_now W)) hslot
            (default hslot (max_live_chain_slot (tab (ac_node a))))).
  Proof. intros H. by apply step_facts in H as (_ & H & _). Qed.

  (** ** C55, C56 *)
  Context (gt : N) (vals : list Validator).
  Context (Hgood : good_hash (e_header E)) (Hvals : lenN vals <= VALIDATOR_REGISTRY_LIMIT).
  Notation reach := (reachable E gt vals).

  Lemma run_gt a tr a' : reach (ac_node a) -> actor_run E C a tr a' ->
    db_gt (nd_db (ac_node a')) = db_gt (nd_db (ac_node a)).
  Proof.
    intros Hr Hrun. apply run_goes in Hrun as (t & Ht & _). apply traced_run in Ht.
    destruct (reachable_inv E gt vals Hgood Hvals _ Hr) as (A & As & w & Hn & _).
    destruct (run_inv E gt vals Hgood Hvals _ _ _ _ _ _ Hn Ht) as (w' & Hst).
    apply (so_gt _ _ _ _ _ _ _ _ _ Hst).
  Qed.
  Lemma clock_forward_app l l' : clock_forward (l ++ l') -> clock_forward l.
  Proof.
    intros H i j x y Hij Hx Hy. eapply (H i j); [done| |]; by apply lookup_app_l_Some.
  Qed.
  Lemma clock_forward_last tr z x : clock_forward (tr ++ [z]) -> x ∈ tr -> w_now x.1.1 <= w_now z.1.1.
  Proof.
    intros H Hx. apply elem_of_list_lookup in Hx as [i Hi]. eapply (H i (length tr)).
    - apply lookup_lt_Some in Hi. lia.
    - by apply lookup_app_l_Some.
    - rewrite lookup_app_r by done. by rewrite Nat.sub_diag.
  Qed.

  Lemma sessions_sorted a tr a' : reach (ac_node a) -> actor_run E C a tr a' -> clock_forward tr ->
    StronglySorted N.lt (sessions (effects tr)) /\
    (forall t, (forall x, x ∈ tr -> w_now x.1.1 <= t) -> forall s, s ∈ sessions (effects tr) ->
       s < wall_slot (ac_node a) t \/ (s = wall_slot (ac_node a) t /\ ac_session a' = Some s)).
  Proof.
    intros Hr Hrun. induction Hrun as [|tr a1 W m a2 fx H IH HW Hs]; intros Hcf.
    { split; [constructor|]. intros t _ s Hs. by apply elem_of_nil in Hs. }
    specialize (IH (clock_forward_app _ _ Hcf)) as [IS IT].
    rewrite effects_snoc, sessions_app.
    pose proof (run_gt _ _ _ Hr H) as Hgt.
    assert (forall t, wall_slot (ac_node a1) t = wall_slot (ac_node a) t) as Hwall by (intros t; unfold wall_slot; by rewrite Hgt).
    pose proof (step_facts E C _ _ _ _ _ Hs) as (_ & _ & [[H1 H2]|(slot & Hne & Hst & Hsl & _)]).
    - rewrite H2, app_nil_r. split; [done|]. intros t Ht s Hin. rewrite H1. apply IT; [|done].
      intros x Hx. apply Ht. set_solver.
    - rewrite Hwall in Hsl.
      assert (forall s, s ∈ sessions (effects tr) -> s < slot) as Hlt.
      { intros s Hin. destruct (IT (w_now W)) with (s := s) as [Hl|[He Hses]]; [|done| |].
        - intros x Hx. apply (clock_forward_last _ _ _ Hcf Hx).
        - by rewrite Hsl.
        - rewrite Hses in Hne. congruence. }
      assert (forall t, (forall x, x ∈ tr ++ [(W, m, fx)] -> w_now x.1.1 <= t) -> slot <= wall_slot (ac_node a) t) as Hle.
      { intros t Ht. specialize (Ht (W, m, fx) ltac:(set_solver)). cbn in Ht. rewrite Hsl. unfold wall_slot.
        apply N.div_le_mono; [done|lia]. }
      destruct Hst as [[Hx ->]|[Hx ->]].
      + split.
        * clear -IS Hlt. induction IS as [|s l HS IH Hall]; cbn; [repeat constructor|].
          constructor; [apply IH; intros; apply Hlt; set_solver|]. apply Forall_app. split; [done|]. constructor; [|constructor].
          apply Hlt. set_solver.
        * intros t Ht s Hin. specialize (Hle t Ht). apply elem_of_app in Hin as [Hin|Hin].
          -- left. specialize (Hlt s Hin). lia.
          -- apply elem_of_list_singleton in Hin as ->. destruct (decide (slot = wall_slot (ac_node a) t)); [by right|left; lia].
      + rewrite app_nil_r. split; [done|]. intros t Ht s Hin. left. specialize (Hle t Ht). specialize (Hlt s Hin). lia.
  Qed.

  Lemma C55_once_pf a tr a' : actor_reachable E C gt vals a -> actor_run E C a tr a' -> clock_forward tr ->
    StronglySorted N.lt (sessions (effects tr)).
  Proof. intros Ha Hrun Hcf. apply actor_reach_node in Ha. by apply (sessions_sorted a tr a'). Qed.

  Lemma C55_start_pf W a m a' fx slot : actor_step E C W a m = Ok (a', fx) -> slot ∈ sessions fx ->
    0 < cf_committees C -> NoDup (cf_subnets C) ->
    let ms := w_now W - db_gt (nd_db (ac_node a)) * 1000 in
    sessions fx = [slot] /\ slot = ms / 4000 /\ ac_session a <> Some slot /\ ac_session a' = Some slot /\ w_aggregator W = true /\
    ((m = m_tick /\ 1600 <= ms mod 4000 < 2400) \/
     (m <> m_tick /\ 1000 <= ms mod 4000 < 1600 /\
      exists s k e, head_state (ac_node a') = Ok s /\ bf_data (nd_gossip (ac_node a')) !! k = Some e /\
        ad_slot (ge_data e) = slot /\ 0 < ge_size e /\
        2 * N.of_nat (length (assigned (lenN (s_validators s)) (cf_committees C) (cf_subnets C))) <= 3 * ge_size e)).
  Proof.
    intros Hs Hin Hc Hd ms. pose proof Hs as Hs0. apply step_facts in Hs as (_ & _ & [[_ H2]|(sl & Hne & Hst & Hsl & Hcase)]).
    { rewrite H2 in Hin. by apply elem_of_nil in Hin. }
    destruct Hst as [[Hses Hfx]|[_ Hfx]]; rewrite Hfx in Hin; [|by apply elem_of_nil in Hin].
    apply elem_of_list_singleton in Hin as ->. split; [done|].
    destruct Hcase as [(-> & Hag & Heq & Hm)|(a1 & Hsy & Hse & Hdb & Hor & Hag & Hge & Hwin & Heq & s & mm & k & e & Hhs & Hmin & Hpos & Hk & He & Hsz)].
    - split_and!; try done. left. split; [done|]. fold ms in Hm.
      pose proof (N.div_mod ms 4000 ltac:(lia)). pose proof (N.mod_upper_bound ms 4000 ltac:(lia)).
      assert (ms / 800 = 5 * (ms / 4000) + (ms mod 4000) / 800) as Hd1.
      { rewrite H at 1. replace (4000 * (ms / 4000) + ms mod 4000) with (5 * (ms / 4000) * 800 + ms mod 4000) by lia.
        by rewrite N.div_add_l by done. }
      rewrite Hd1 in Hm. replace (5 * (ms / 4000) + ms mod 4000 / 800) with (ms mod 4000 / 800 + ms / 4000 * 5) in Hm by lia.
      rewrite N.mod_add in Hm by done.
      assert (ms mod 4000 / 800 < 5) by (apply N.div_lt_upper_bound; lia).
      rewrite N.mod_small in Hm by done.
      pose proof (N.div_mod (ms mod 4000) 800 ltac:(lia)) as Hdm. pose proof (N.mod_upper_bound (ms mod 4000) 800 ltac:(lia)).
      rewrite Hm in Hdm. lia.
    - rewrite Hdb in *. split_and!; try done. right. split; [destruct Hor as [[_ ->]|(? & ? & -> & _)]; done|]. split; [done|].
      exists s, k, e.
      assert (head_state (ac_node a') = head_state (ac_node a1) /\ nd_gossip (ac_node a') = nd_gossip (ac_node a1)) as [Hh Hg].
      { clear -Hs0 Hor Hne Hses. unfold actor_step in Hs0. destruct Hor as [[-> ->]|(sa & n1 & -> & -> & Hn1)].
        - apply early_goes in Hs0 as (-> & _). done.
        - apply rbind_Ok in Hs0 as ([n2 fx1] & H1 & H). cbn [fst snd] in H.
          assert (n2 = n1) as ->.
          { destruct (on_gossip_attestation E (ac_node a) sa (w_aggregator W)) as [n'|er|]; [| |done]; injection H1 as <- <-.
            - destruct Hn1 as [Hn1|[_ [? Hn1]]]; [by injection Hn1|done].
            - by destruct Hn1 as [Hn1|[-> _]]. }
          destruct (_ =? _) in H; [|injection H as <- <-; done].
          apply rbind_Ok in H as ([a2 fx2] & H2 & H). injection H as <- <-. cbn [fst].
          apply early_goes in H2 as (-> & _). done. }
      rewrite Hh, Hg. split_and!; try done; [lia|].
      apply (C55_threshold_pf C (lenN (s_validators s)) Hc Hd). by rewrite Hmin.
  Qed.

  Lemma last_session a tr a' : ac_session a = None -> actor_run E C a tr a' ->
    forall id, ac_session a' = Some id -> last (sessions (effects tr)) = Some id.
  Proof.
    intros H0 Hrun. induction Hrun as [|tr a1 W m a2 fx H IH HW Hs]; intros id Hid; [congruence|].
    rewrite effects_snoc, sessions_app.
    pose proof (step_facts E C _ _ _ _ _ Hs) as (_ & _ & [[H1 H2]|(slot & Hne & [[Hx ->]|[Hx ->]] & _)]).
    - rewrite H2, app_nil_r. apply IH. congruence.
    - rewrite last_snoc. congruence.
    - congruence.
  Qed.
  Lemma C56_current_pf n0 tr a W id data p parts keys a' fx :
    actor_run E C (start_actor n0) tr a ->
    actor_step E C W a (m_produced id data p parts keys) = Ok (a', fx) ->
    last (sessions (effects tr)) = Some id \/ (a' = a /\ fx = []).
  Proof.
    intros Hrun Hs. unfold actor_step in Hs. case_bool_decide as Hid; [|injection Hs as <- <-; by right].
    left. by eapply last_session; [|exact Hrun|].
  Qed.
  Lemma C56_stale_pf n0 tr a W id later data p parts keys :
    reach n0 -> actor_run E C (start_actor n0) tr a -> clock_forward tr ->
    later ∈ sessions (effects tr) -> id < later ->
    actor_step E C W a (m_produced id data p parts keys) = Ok (a, []).
  Proof.
    intros Hr Hrun Hcf Hin Hlt. unfold actor_step. case_bool_decide as Hid; [|done]. exfalso.
    apply (last_session (start_actor n0) tr a eq_refl Hrun) in Hid.
    destruct (sessions_sorted (start_actor n0) tr a Hr Hrun Hcf) as [HS _].
    revert Hid Hin Hlt HS. generalize (sessions (effects tr)) as l. clear. intros l Hl Hin Hlt HS.
    apply last_Some in Hl as [l' ->]. apply elem_of_app in Hin as [Hin|Hin]; [|apply elem_of_list_singleton in Hin; lia].
    assert (later < id); [|lia]. clear Hlt. induction l' as [|x l' IH]; [by apply elem_of_nil in Hin|].
    cbn in HS. apply StronglySorted_inv in HS as [HS Hall]. apply elem_of_cons in Hin as [->|Hin]; [|by apply IH].
    rewrite List.Forall_forall in Hall. apply Hall. apply in_or_app. right. by left.
  Qed.

  (** ** C42, C60 *)
  Context (Hacyc : acyclic_hash (e_header E)).
  Lemma C42_maps_pf a : actor_reachable E C gt vals a -> pending_ok a.
  Proof. intros Ha. by apply (actor_reach E C gt vals Hgood Hvals a Ha Hacyc). Qed.

  Lemma C60_pf W a m :
    actor_reachable E C gt vals a -> world_ok W -> clock_fits (ac_node a) -> wall_fits W (ac_node a) ->
    (exists a' fx, actor_step E C W a m = Ok (a', fx)) \/
    (actor_step E C W a m = Panic /\ exists sb g r h, m = m_block sb g /\
       has_state (tab (ac_node a)) (b_parent (sb_block sb)) = false /\
       (r = b_parent (sb_block sb) \/ strict_anc (tab (ac_node a)) r (b_parent (sb_block sb))) /\
       t_headers (tab (ac_node a)) !! r = Some h /\ has_state (tab (ac_node a)) (h_parent h) = true /\
       get_signed_block (e_body E) (tab (ac_node a)) r = None /\
       h_slot h + 21600 <= current_slot (nd_db (ac_node a))).
  Proof.
    intros Ha HW Hcl Hwf. pose proof (actor_reach E C gt vals Hgood Hvals a Ha Hacyc) as [Hr HP].
    destruct Hacyc as [rank Hrank].
    destruct (step_safe E C gt vals Hgood Hvals rank Hrank W a m Hr HP HW Hcl Hwf) as [Hok|(Hp & sb & g & -> & Hst & r & h & H1 & H2 & H3 & H4)];
      [by left|right]. split; [done|]. exists sb, g, r, h. split_and!; try done.
    eapply (lost_cause E gt vals); try done.
  Qed.

  Lemma C42_terminates_pf W a m :
    actor_reachable E C gt vals a -> world_ok W -> clock_fits (ac_node a) -> wall_fits W (ac_node a) ->
    actor_step E C W a m <> Err tt.
  Proof. intros Ha HW Hc Hw H. destruct (C60_pf W a m Ha HW Hc Hw) as [(a' & fx & G)|[G _]]; congruence. Qed.

  Lemma C42_discard_pf W a sb g :
    let n := ac_node a in let r := block_root (e_header E) (e_body E) (sb_block sb) in
    actor_reachable E C gt vals a -> world_ok W -> clock_fits n ->
    b_slot (sb_block sb) <= cp_slot (db_fin (nd_db n)) \/ db_time (nd_db n) + 1 < 5 * b_slot (sb_block sb) ->
    exists a' fx, actor_step E C W a (m_block sb g) = Ok (a', fx) /\
      imported fx = [] /\
      t_headers (tab (ac_node a')) = t_headers (tab n) /\
      (forall x, has_state (tab (ac_node a')) x = has_state (tab n) x) /\
      (forall k cs, ac_pend a' !! k = Some cs <-> ac_pend a !! k = Some cs /\ k <> r /\ ~ under (ac_pend a) r k) /\
      (forall k m, ac_par a' !! k = Some m <-> ac_par a !! k = Some m /\ ~ under (ac_pend a) r k).
  Proof.
    intros n r Ha HW Hcl Hor. pose proof (actor_reach E C gt vals Hgood Hvals a Ha Hacyc) as [Hr HP].
    destruct Hacyc as [rank Hrank].
    pose proof (reach_ranked E gt vals Hgood Hvals _ _ Hrank Hr) as Hrk.
    destruct (discard_ok rank W a r HW HP Hrk) as (a1 & Hd & HP1 & (Hn1 & _ & _) & Hp1 & Hq1).
    assert (process_or_pend_block E C W a sb = Ok (a1, [], [])) as Hpop.
    { unfold process_or_pend_block. fold r. rewrite Hd. cbn [rbind].
      destruct (N.leb_spec (b_slot (sb_block sb)) (cp_slot (db_fin (nd_db (ac_node a))))) as [H|H]; [done|].
      destruct (N.ltb_spec (db_time (nd_db (ac_node a)) + GOSSIP_DISPARITY_INTERVALS)
        (saturating_mul (b_slot (sb_block sb)) INTERVALS_PER_SLOT)) as [H1|H1]; [done|]. exfalso.
      revert H1. unfold saturating_mul. change GOSSIP_DISPARITY_INTERVALS with 1. change INTERVALS_PER_SLOT with 5.
      unfold clock_fits in Hcl. change (5 * two32) with 21474836480 in Hcl. change (two64 - 1) with 18446744073709551615.
      fold n. fold n in Hcl, H. lia. }
    cbn [actor_step]. unfold actor_on_block.
    replace (size (t_headers (tab (ac_node a))) + 4)%nat with (S (S (size (t_headers (tab (ac_node a))) + 2))) by lia.
    cbn [block_loop app]. rewrite Hpop. cbn [rbind fst snd app]. rewrite Hn1.
    destruct (reachable_inv E gt vals Hgood Hvals _ Hr) as (A & As & w & [Hi _] & _).
    destruct (db_inv_prune_old _ _ _ Hvals _ _ _ _ Hi) as (d' & Hd' & _ & _ & _ & _ & _ & _ & Hhd). rewrite Hd'. cbn [rbind fst snd].
    eexists _, _. split; [reflexivity|]. cbn [ac_node with_node ac_pend ac_par]. split_and!; try done.
    - by destruct g.
    - intros x. unfold prune_old_data in Hd'. destruct (get_header _ _); [|done]. injection Hd' as <-.
      unfold prune_old_block_proofs. by destruct (_ || _).
  Qed.
End Runs.
