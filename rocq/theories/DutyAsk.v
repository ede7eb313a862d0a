(** Which messages make the node sign (C65). *)
From Verif Require Export DutyProofs.

(** The worlds differ in signing and building only. *)
Record same_else (W W' : World) : Prop := {
  se_now : w_now W' = w_now W;
  se_after : w_after W' = w_after W;
  se_aggr : w_aggregator W' = w_aggregator W;
  se_iter : w_iter W' = w_iter W;
  se_reagg : w_reagg W' = w_reagg W;
  se_jobs : w_jobs W' = w_jobs W }.

Section Ask.
  Context (E : Env) (C : Config).
  Context (W W' : World) (HS : same_else W W').

  Lemma same_discard fuel a r : discard fuel W' a r = discard fuel W a r.
  Proof using HS.
    revert a r. induction fuel as [|f IH]; intros a r; cbn [discard]; [done|].
    destruct (ac_pend a !! r) as [cs|]; [|done]. rewrite (se_iter _ _ HS).
    generalize (Ok (E := unit) (with_maps a (delete r (ac_pend a)) (ac_par a))).
    induction (w_iter W cs) as [|c l IHl]; intros x; cbn [fold_left]; [done|].
    destruct x as [x|e|]; cbn [rbind]; rewrite ?IH; apply IHl.
  Qed.
  Lemma same_import n sb : import_and_emit E W' n sb = import_and_emit E W n sb.
  Proof using HS. unfold import_and_emit. by rewrite (se_after _ _ HS). Qed.
  Lemma same_reagg a sb : run_reaggregate E C W' a sb = run_reaggregate E C W a sb.
  Proof using HS. unfold run_reaggregate. by rewrite (se_aggr _ _ HS), (se_reagg _ _ HS). Qed.
  Lemma same_collect a r : collect_pending_children E W' a r = collect_pending_children E W a r.
  Proof using HS. unfold collect_pending_children. by rewrite (se_iter _ _ HS). Qed.
  Lemma same_pop a sb : process_or_pend_block E C W' a sb = process_or_pend_block E C W a sb.
  Proof using HS.
    unfold process_or_pend_block, discard_pending_subtree. rewrite same_discard, same_import.
    destruct (_ <=? _); [done|]. destruct (_ <? _); [done|]. destruct (negb _); [done|].
    destruct (import_and_emit E W (ac_node a) sb) as [[n' fx]|e|]; [|done|done]. rewrite same_reagg.
    destruct (run_reaggregate E C W (with_node a n') sb) as [y|e|]; cbn [rbind]; [|done|done]. by rewrite same_collect.
  Qed.
  Lemma same_loop fuel a q : block_loop E C fuel W' a q = block_loop E C fuel W a q.
  Proof using HS.
    revert a q. induction fuel as [|f IH]; intros a [|sb q]; cbn [block_loop]; try done.
    rewrite same_pop. destruct (process_or_pend_block E C W a sb) as [x|e|]; cbn [rbind]; [|done|done].
    by rewrite IH.
  Qed.
  Lemma same_session a slot : start_aggregation_session C W' a slot = start_aggregation_session C W a slot.
  Proof using HS. unfold start_aggregation_session. by rewrite (se_jobs _ _ HS). Qed.
  Lemma same_early a : maybe_start_early_aggregation C W' a = maybe_start_early_aggregation C W a.
  Proof using HS.
    unfold maybe_start_early_aggregation. rewrite (se_aggr _ _ HS), (se_now _ _ HS).
    destruct (negb _); [done|]. destruct (_ <? _); [done|]. destruct (_ || _); [done|].
    case_bool_decide; [done|]. destruct (head_state (ac_node a)); cbn [rbind]; [|done|done].
    destruct (_ || _); [done|]. apply same_session.
  Qed.

  (** A tick either stops before the duty or runs it. *)
  Definition idle (a : Actor) : Prop :=
    (0 < db_time (nd_db (ac_node a)) /\ wall_interval W a <= db_time (nd_db (ac_node a))) \/
    exists s, head_state (ac_node a) = Ok s /\ s_validators s = [].
  Lemma same_tick a :
    idle a \/ (forall a2, interval_duty E C W' a2 (wall_interval W a / 5) (interval_of (wall_interval W a)) =
                          interval_duty E C W a2 (wall_interval W a / 5) (interval_of (wall_interval W a))) ->
    actor_on_tick E C W' a = actor_on_tick E C W a.
  Proof using HS.
    intros Hor. unfold actor_on_tick. rewrite (se_now _ _ HS).
    change MILLISECONDS_PER_INTERVAL with 800. change MILLISECONDS_PER_SLOT with 4000.
    unfold idle in Hor. unfold wall_interval in Hor.
    set (ms := w_now W - db_gt (nd_db (ac_node a)) * 1000) in *.
    replace (ms / 4000) with (ms / 800 / 5) by (by rewrite N.div_div).
    destruct (N.ltb_spec 0 (db_time (nd_db (ac_node a)))) as [Hz|Hz];
      [destruct (N.leb_spec (ms / 800) (db_time (nd_db (ac_node a)))) as [Hi|Hi]|]; cbn [andb]; [done| |].
    all: destruct Hor as [[[H1 H2]|(s & -> & Hv)]|Hor]; [lia|by cbn [rbind]; rewrite Hv|].
    all: destruct (head_state (ac_node a)) as [s|e|]; cbn [rbind]; [|done|done]; destruct (s_validators s); [done|].
    all: destruct (update_sync_status a (ms / 800 / 5)) as [a1|e|]; cbn [rbind]; [|done|done].
    all: match goal with |- context [if ?b then ?x else ?y] => destruct (if b then x else y) as [pr|e|] end; cbn [rbind]; [|done|done].
    all: destruct (on_tick E (ac_node a) (w_now W) pr) as [n2|e|]; cbn [rbind]; [|done|done].
    all: by rewrite Hor.
  Qed.
  Lemma same_other a m : m <> m_tick -> actor_step E C W' a m = actor_step E C W a m.
  Proof using HS.
    intros Hm. destruct m as [|sb g|sa|sg| |id data p parts keys]; [done|..]; unfold actor_step.
    - unfold actor_on_block. by rewrite same_loop.
    - rewrite (se_aggr _ _ HS).
      destruct (match on_gossip_attestation E (ac_node a) sa (w_aggregator W) with
                | Ok n' => Ok (n', [fx_event (CeAttestation (sa_validator sa) (sa_data sa))])
                | Err _ => Ok (ac_node a, []) | Panic => Panic end) as [x|e|]; cbn [rbind]; [|done|done].
      destruct (_ =? _); [|done]. by rewrite same_early.
    - done.
    - apply same_early.
    - done.
  Qed.
End Ask.

Section Once.
  Context (E : Env) (C : Config) (gt : N) (vals : list Validator).
  Context (Hgood : good_hash (e_header E)) (Hvals : lenN vals <= VALIDATOR_REGISTRY_LIMIT).
  Notation reach := (reachable E gt vals).

  (** When a message's outcome depends on the signer or builder: a tick that runs its
      duty. *)
  Lemma differs W W' a m a' fx : same_else W W' -> reach (ac_node a) ->
    actor_step E C W a m = Ok (a', fx) -> actor_step E C W' a m <> actor_step E C W a m ->
    let i := wall_interval W a in
    m = m_tick /\ ~ (forall a2, interval_duty E C W' a2 (i / 5) (interval_of i) = interval_duty E C W a2 (i / 5) (interval_of i)) /\
    (i = 0 \/ db_time (nd_db (ac_node a)) < i) /\ i <= db_time (nd_db (ac_node a')).
  Proof using Hgood Hvals.
    cbn zeta. intros HS Hr H Hne.
    assert (m = m_tick) as ->.
    { destruct m; try done; exfalso; apply Hne; by apply same_other. }
    split; [done|]. cbn [actor_step] in *. split; [intros Heq; apply Hne, same_tick; [done|by right]|].
    apply tick_detail in H as Hd. cbn zeta in Hd.
    destruct Hd as [(-> & -> & Hidle)|(hp & n2 & a2 & ev & fx2 & Htime & Hon & Hn2 & _ & _ & -> & Hd)].
    { exfalso. apply Hne, same_tick; [done|]. left. exact Hidle. }
    pose proof (C35_clock_pf _ _ _ _ _ Hon) as Hclk. fold (wall_interval W a) in Hclk.
    assert (reach n2) as Hr2.
    { eapply reach_run; [exact Hr|]. apply run_one. instantiate (1 := ev_tick (w_now W) hp). exact Hon. }
    apply interval_goes in Hd as (G & _). rewrite Hn2 in G.
    destruct (time_goes E gt vals Hgood Hvals _ _ _ Hr2 G) as [Ht _]. split; lia.
  Qed.

  Lemma ask_vote_facts s a W m a' fx : reach (ac_node a) -> actor_step E C W a m = Ok (a', fx) ->
    asks_vote E C s (a, W, m, fx) ->
    db_time (nd_db (ac_node a)) < 5 * s + 1 <= db_time (nd_db (ac_node a')).
  Proof using Hgood Hvals.
    intros Hr H (f & Hf & Hne).
    assert (same_else W (set_sign W f)) as HS by done.
    destruct (differs W _ a m a' fx HS Hr H Hne) as (_ & Hneq & Ht1 & Ht2).
    set (i := wall_interval W a) in *. pose proof (N.div_mod i 5 ltac:(lia)) as Hdm.
    assert (i mod 5 = 1 /\ i / 5 = s) as [Hi Hs]; [|lia].
    assert (interval_of i = AttestationProduction \/ interval_of i <> AttestationProduction) as [Hp|Hp]
      by (destruct (interval_of i); auto).
    - destruct (interval_cases i) as [[Hi Hm]|[[Hi Hm]|[[Hi Hm]|[[Hi Hm]|[Hi Hm]]]]]; try congruence.
      split; [done|]. destruct (decide (i / 5 = s)) as [|Hds]; [done|]. exfalso. apply Hneq. intros a2. rewrite Hi.
      cbn [interval_duty]. destruct (duties_allowed C a2); [|done]. unfold produce_attestations.
      cbn [set_sign w_aggregator].
      destruct (produce_attestation_data (nd_db (ac_node a2)) (i / 5)) as [data|e|] eqn:Hd; cbn [rbind]; [|done|done].
      apply produced_slot in Hd.
      assert (forall n, publish_votes E (set_sign W f) n data (w_aggregator W) (cf_own C) =
                        publish_votes E W n data (w_aggregator W) (cf_own C)) as ->; [|done].
      induction (cf_own C) as [|v vs IH]; intros n; [done|]. cbn [publish_votes set_sign w_sign].
      rewrite Hf by congruence. destruct (w_sign W v data); [|apply IH].
      match goal with |- rbind ?x _ = _ => destruct x as [n1|e|]; cbn [rbind]; [|done|done] end. by rewrite IH.
    - exfalso. apply Hneq. intros a2. destruct (interval_of i); try done.
  Qed.
  Lemma ask_block_facts s a W m a' fx : reach (ac_node a) -> actor_step E C W a m = Ok (a', fx) ->
    asks_block E C s (a, W, m, fx) ->
    db_time (nd_db (ac_node a)) + 1 < 5 * s <= db_time (nd_db (ac_node a')) + 1.
  Proof using Hgood Hvals.
    intros Hr H (f & Hf & Hne).
    assert (same_else W (set_build W f)) as HS by done.
    destruct (differs W _ a m a' fx HS Hr H Hne) as (_ & Hneq & Ht1 & Ht2).
    set (i := wall_interval W a) in *. pose proof (N.div_mod i 5 ltac:(lia)) as Hdm.
    assert (i mod 5 = 4 /\ i / 5 + 1 = s) as [Hi Hs]; [|lia].
    assert (interval_of i = EndOfSlot \/ interval_of i <> EndOfSlot) as [Hp|Hp]
      by (destruct (interval_of i); auto).
    - destruct (interval_cases i) as [[Hi Hm]|[[Hi Hm]|[[Hi Hm]|[[Hi Hm]|[Hi Hm]]]]]; try congruence.
      split; [done|]. destruct (decide (i / 5 + 1 = s)) as [|Hds]; [done|]. exfalso. apply Hneq. intros a2. rewrite Hi.
      cbn [interval_duty]. destruct (get_our_proposer C a2 (i / 5 + 1)) as [[v|]|e|]; cbn [rbind]; try done.
      destruct (duties_allowed C a2); [|done]. unfold propose_block.
      destruct (get_proposal_head E (ac_node a2) (i / 5 + 1)) as [[n1 h]|e|]; cbn [rbind fst set_build w_build]; [|done|done].
      by rewrite Hf.
    - exfalso. apply Hneq. intros a2. destruct (interval_of i) eqn:Hio; try done. cbn [interval_duty].
      unfold produce_attestations. cbn [set_build w_aggregator].
      destruct (duties_allowed C a2); [|done].
      destruct (produce_attestation_data (nd_db (ac_node a2)) (i / 5)) as [data|e|]; cbn [rbind]; [|done|done].
      assert (forall n, publish_votes E (set_build W f) n data (w_aggregator W) (cf_own C) =
                        publish_votes E W n data (w_aggregator W) (cf_own C)) as ->; [|done].
      induction (cf_own C) as [|v vs IH]; intros n; [done|]. cbn [publish_votes set_build w_sign].
      destruct (w_sign W v data); [|apply IH].
      match goal with |- rbind ?x _ = _ => destruct x as [n1|e|]; cbn [rbind]; [|done|done] end. by rewrite IH.
  Qed.

  (** Positions in a life. *)
  Lemma life_at a l a' i x : reach (ac_node a) -> lifetime E C a l a' -> l !! i = Some x ->
    exists a2, reach (ac_node x.1.1.1) /\ actor_step E C x.1.1.2 x.1.1.1 x.1.2 = Ok (a2, x.2) /\
      db_time (nd_db (ac_node a2)) <= db_time (nd_db (ac_node a')).
  Proof using Hgood Hvals.
    intros Hr Hl. induction Hl as [|l a1 W m a2 fx Hl IH HW Hs|l a1 _ IH]; [done| |exact IH].
    intros Hi. pose proof (life_reach E C gt vals Hgood Hvals _ _ _ Hr Hl) as Hr1.
    pose proof (step_out E C gt vals Hgood Hvals _ _ _ _ _ Hr1 Hs) as (_ & Hm & _).
    apply lookup_app_Some in Hi as [Hi|[_ Hi]].
    - destruct (IH Hi) as (a3 & H1 & H2 & H3). exists a3. split_and!; [done|done|lia].
    - apply list_lookup_singleton_Some in Hi as [_ <-]. exists a2. split_and!; [done|done|cbn; lia].
  Qed.
  Lemma life_order a l a' i j x y : reach (ac_node a) -> lifetime E C a l a' -> (i < j)%nat ->
    l !! i = Some x -> l !! j = Some y ->
    exists a2 b2, reach (ac_node x.1.1.1) /\ actor_step E C x.1.1.2 x.1.1.1 x.1.2 = Ok (a2, x.2) /\
      reach (ac_node y.1.1.1) /\ actor_step E C y.1.1.2 y.1.1.1 y.1.2 = Ok (b2, y.2) /\
      db_time (nd_db (ac_node a2)) <= db_time (nd_db (ac_node y.1.1.1)).
  Proof using Hgood Hvals.
    intros Hr Hl Hij. induction Hl as [|l a1 W m a2 fx Hl IH HW Hs|l a1 _ IH]; [done| |exact IH].
    intros Hi Hj. pose proof (life_reach E C gt vals Hgood Hvals _ _ _ Hr Hl) as Hr1.
    pose proof (lookup_lt_Some _ _ _ Hj) as Hlen. rewrite app_length in Hlen. cbn in Hlen.
    rewrite lookup_app_l in Hi by lia.
    apply lookup_app_Some in Hj as [Hj|[_ Hj]]; [by apply IH|].
    apply list_lookup_singleton_Some in Hj as [_ <-]. cbn [fst snd].
    destruct (life_at _ _ _ _ _ Hr Hl Hi) as (a3 & H1 & H2 & H3). exists a3, a2. done.
  Qed.

  Lemma vote_once a l a' s i j x y : reach (ac_node a) -> lifetime E C a l a' -> (i < j)%nat ->
    l !! i = Some x -> l !! j = Some y -> asks_vote E C s x -> ~ asks_vote E C s y.
  Proof using Hgood Hvals.
    intros Hr Hl Hij Hi Hj Hx Hy.
    destruct (life_order _ _ _ _ _ _ _ Hr Hl Hij Hi Hj) as (a2 & b2 & R1 & S1 & R2 & S2 & Ht).
    destruct x as [[[xa xW] xm] xf], y as [[[ya yW] ym] yf]. cbn [fst snd] in *.
    pose proof (ask_vote_facts _ _ _ _ _ _ R1 S1 Hx). pose proof (ask_vote_facts _ _ _ _ _ _ R2 S2 Hy). lia.
  Qed.
  Lemma block_once a l a' s i j x y : reach (ac_node a) -> lifetime E C a l a' -> (i < j)%nat ->
    l !! i = Some x -> l !! j = Some y -> asks_block E C s x -> ~ asks_block E C s y.
  Proof using Hgood Hvals.
    intros Hr Hl Hij Hi Hj Hx Hy.
    destruct (life_order _ _ _ _ _ _ _ Hr Hl Hij Hi Hj) as (a2 & b2 & R1 & S1 & R2 & S2 & Ht).
    destruct x as [[[xa xW] xm] xf], y as [[[ya yW] ym] yf]. cbn [fst snd] in *.
    pose proof (ask_block_facts _ _ _ _ _ _ R1 S1 Hx). pose proof (ask_block_facts _ _ _ _ _ _ R2 S2 Hy). lia.
  Qed.

  (** ** C66: duties are performed *)
  Lemma head_vals n s : reach n -> head_state n = Ok s -> s_validators s = vals.
  Proof using Hgood Hvals.
    intros Hr H. destruct (reachable_inv E gt vals Hgood Hvals _ Hr) as (A & As & w & Hi & _).
    unfold head_state in H. apply rbind_Ok in H as ([s'|] & H1 & H); [|done]. injection H as <-.
    destruct (read_state (tab n) (db_head (nd_db n))) as [o|e|] eqn:Hrd; [|done|done]. injection H1 as ->.
    eapply AggNode.state_vals; done.
  Qed.
  Lemma tick_runs W a a' fx : reach (ac_node a) -> vals <> [] -> actor_step E C W a m_tick = Ok (a', fx) ->
    let i := wall_interval W a in
    db_time (nd_db (ac_node a)) < i ->
    exists hp n2 a2 ev fx2, on_tick E (ac_node a) (w_now W) hp = Ok n2 /\ ac_node a2 = n2 /\ reach n2 /\
      db_time (nd_db n2) = i /\
      ac_syncing a2 = ac_syncing a' /\ ac_session a2 = ac_session a /\
      fx = map fx_event ev ++ fx2 /\ interval_duty E C W a2 (i / 5) (interval_of i) = Ok (a', fx2).
  Proof using Hgood Hvals.
    cbn zeta. intros Hr Hne H Hlt. cbn [actor_step] in H.
    apply tick_detail in H as [(_ & _ & [Hid|(s & Hs & Hv)])|(hp & n2 & a2 & ev & fx2 & Htime & Hon & Hn2 & Hsy & Hse & -> & Hd)].
    - lia.
    - by rewrite (head_vals _ _ Hr Hs) in Hv.
    - exists hp, n2, a2, ev, fx2. split_and!; try done.
      + eapply reach_run; [exact Hr|]. apply run_one. instantiate (1 := ev_tick (w_now W) hp). exact Hon.
      + rewrite (C35_clock_pf _ _ _ _ _ Hon). fold (wall_interval W a). lia.
  Qed.
  Lemma may_act a : cf_gate C = false \/ ac_syncing a = false -> duties_allowed C a = true.
  Proof. unfold duties_allowed, duties_allowed_. intros [->| ->]; [done|]. apply orb_true_r. Qed.

  Lemma votes_cast W a a' fx : reach (ac_node a) -> vals <> [] -> actor_step E C W a m_tick = Ok (a', fx) ->
    let i := wall_interval W a in
    db_time (nd_db (ac_node a)) < i -> i mod 5 = 1 -> cf_gate C = false \/ ac_syncing a' = false ->
    db_time (nd_db (ac_node a')) = i /\
    exists data, produce_attestation_data (nd_db (ac_node a')) (i / 5) = Ok data /\
      votes_out fx = signed_votes W data (cf_own C).
  Proof using Hgood Hvals.
    cbn zeta. intros Hr Hne H Hlt Hm Hgate.
    destruct (tick_runs W a a' fx Hr Hne H Hlt) as (hp & n2 & a2 & ev & fx2 & Hon & Hn2 & Hr2 & Ht & Hsy & Hse & -> & Hd).
    destruct (interval_cases (wall_interval W a)) as [[Hi Hm']|[[Hi Hm']|[[Hi Hm']|[[Hi Hm']|[Hi Hm']]]]]; try lia.
    rewrite Hi in Hd. cbn [interval_duty] in Hd. rewrite may_act in Hd by (by rewrite Hsy).
    apply produce_facts in Hd as (data & D1 & D2 & D3 & D4). split; [by rewrite D4, Hn2|]. exists data.
    split; [done|]. by rewrite votes_out_app, (proj1 (no_pub_out _ (no_pub_events ev))).
  Qed.

  Lemma find_proposer slot v : v ∈ cf_own C -> is_proposer v slot (lenN vals) = true ->
    List.find (fun u => is_proposer u slot (lenN vals)) (cf_own C) = Some v.
  Proof.
    intros Hin Hp. destruct (List.find _ _) as [u|] eqn:Hf.
    - apply List.find_some in Hf as [_ Hu]. unfold is_proposer in *.
      apply bool_decide_eq_true in Hu, Hp. congruence.
    - exfalso. pose proof (List.find_none _ _ Hf v) as H. rewrite H in Hp; [done|]. by apply elem_of_list_In.
  Qed.
  Lemma block_proposed W a a' fx v : reach (ac_node a) -> vals <> [] -> actor_step E C W a m_tick = Ok (a', fx) ->
    let i := wall_interval W a in let slot := i / 5 + 1 in
    db_time (nd_db (ac_node a)) < i -> i mod 5 = 4 -> cf_gate C = false \/ ac_syncing a' = false ->
    v ∈ cf_own C -> is_proposer v slot (lenN vals) = true ->
    exists n n1 h, reach n /\ db_time (nd_db n) = i /\ get_proposal_head E n slot = Ok (n1, h) /\ reach n1 /\
      forall sb n2, w_build W n1 slot v = Some sb -> on_block E n1 sb = Ok n2 ->
        blocks_out fx = [sb] /\
        has_state (tab (ac_node a')) (block_root (e_header E) (e_body E) (sb_block sb)) = true.
  Proof using Hgood Hvals.
    cbn zeta. intros Hr Hne H Hlt Hm Hgate Hv Hpr.
    destruct (tick_runs W a a' fx Hr Hne H Hlt) as (hp & n2 & a2 & ev & fx2 & Hon & Hn2 & Hr2 & Ht & Hsy & Hse & -> & Hd).
    destruct (interval_cases (wall_interval W a)) as [[Hi Hm']|[[Hi Hm']|[[Hi Hm']|[[Hi Hm']|[Hi Hm']]]]]; try lia.
    set (slot := wall_interval W a / 5 + 1) in *.
    rewrite Hi in Hd. cbn [interval_duty] in Hd. fold slot in Hd.
    apply rbind_Ok in Hd as (p & Hp & Hd). unfold get_our_proposer in Hp. rewrite Hn2 in Hp.
    apply rbind_Ok in Hp as (s & Hs & Hp). injection Hp as <-. rewrite (head_vals _ _ Hr2 Hs) in Hd.
    rewrite (find_proposer _ _ Hv Hpr) in Hd. rewrite may_act in Hd by (by rewrite Hsy).
    unfold propose_block in Hd. apply rbind_Ok in Hd as ([n1 h] & H1 & Hd). cbn [fst] in Hd. rewrite Hn2 in *.
    assert (reach n1) as Hr1.
    { eapply reach_run; [exact Hr2|]. apply run_one. instantiate (1 := ev_propose slot). cbn [node_step]. by rewrite H1. }
    exists n2, n1, h. split_and!; try done. intros sb n3 Hb Hok. rewrite Hb in Hd.
    destruct (import_and_emit E W n1 sb) as [[n4 fx4]|e|] eqn:Him.
    - assert (n4 = n3) as ->.
      { unfold import_and_emit in Him. rewrite Hok in Him. cbn [rbind] in Him. apply rbind_Ok in Him as (? & _ & Him).
        by injection Him as -> _. }
      injection Hd as <- <-. cbn [ac_node with_node]. split; [|by eapply import_has_state].
      apply import_fx in Him as [P _]. apply no_pub_out in P as [_ B].
      rewrite !blocks_out_app, B, !(proj2 (no_pub_out _ (no_pub_events _))). done.
    - exfalso. unfold import_and_emit in Him. rewrite Hok in Him. cbn [rbind] in Him.
      destruct (slot_of_root n3 _); done.
    - done.
  Qed.

  (** ** C55: the size of a session *)
  (** *** Sessions *)
  Lemma no_ses_none fx slot k : sessions fx = [] -> fx_session slot k ∉ fx.
  Proof using.
    intros H Hin. assert (slot ∈ sessions fx) as Hs; [|rewrite H in Hs; by apply elem_of_nil in Hs].
    unfold sessions. apply elem_of_list_omap. by eexists.
  Qed.
  Lemma early_session W a a' fx slot k : maybe_start_early_aggregation C W a = Ok (a', fx) -> fx_session slot k ∈ fx ->
    start_aggregation_session C W a slot = Ok (a', fx).
  Proof using.
    unfold maybe_start_early_aggregation. intros H Hin.
    assert (forall x : Actor, Ok (E := unit) (x, []) = Ok (a', fx) -> False) as Hno.
    { intros x Hx. injection Hx as _ <-. by apply elem_of_nil in Hin. }
    destruct (negb _); [by destruct (Hno _ H)|]. destruct (_ <? _); [by destruct (Hno _ H)|].
    destruct (_ || _); [by destruct (Hno _ H)|]. case_bool_decide; [by destruct (Hno _ H)|].
    apply rbind_Ok in H as (s & _ & H). destruct (_ || _); [by destruct (Hno _ H)|].
    assert (slot = (w_now W - db_gt (nd_db (ac_node a)) * 1000) / MILLISECONDS_PER_SLOT) as ->; [|done].
    unfold start_aggregation_session in H. apply rbind_Ok in H as (p & _ & H).
    destruct (w_jobs _ _ _ _); injection H as _ <-; [|by apply elem_of_nil in Hin].
    apply elem_of_list_singleton in Hin. by injection Hin.
  Qed.
  Lemma from_session W a m a' fx slot k : actor_step E C W a m = Ok (a', fx) -> fx_session slot k ∈ fx ->
    exists a1 fx1, start_aggregation_session C W a1 slot = Ok (a', fx1) /\ fx_session slot k ∈ fx1 /\
      ac_node a' = ac_node a1 /\ ac_syncing a' = ac_syncing a1.
  Proof using.
    clear Hgood Hvals. intros H Hin. unfold actor_step in H. destruct m as [|sb g|sa|sg| |id data p parts keys].
    - apply tick_detail in H as [(-> & -> & _)|(hp & n2 & a2 & ev & fx2 & Htime & Hon & Hn2 & Hsy & Hse & -> & Hd)];
        [by apply elem_of_nil in Hin|].
      apply elem_of_app in Hin as [Hin|Hin].
      { apply elem_of_list_fmap in Hin as (? & ? & _). done. }
      pose proof Hd as Hf. apply interval_facts in Hf as [_ [[_ Hno]|(Hi & Hag & Hne & Hst)]].
      { by destruct (no_ses_none _ slot k Hno). }
      rewrite Hi in Hd. cbn [interval_duty] in Hd. rewrite Hag in Hd.
      destruct (bool_decide _) in Hd; cbn [negb andb] in Hd; [injection Hd as <- <-; by apply elem_of_nil in Hin|].
      exists a2, fx2. pose proof (session_goes _ _ _ _ _ _ Hd) as (G1 & _ & _ & G2 & _). split; [|done].
      match type of Hd with start_aggregation_session _ _ _ ?s = _ => assert (slot = s) as ->; [|done] end.
      unfold start_aggregation_session in Hd. apply rbind_Ok in Hd as (p & _ & Hd).
      destruct (w_jobs _ _ _ _); injection Hd as _ <-; [|by apply elem_of_nil in Hin].
      apply elem_of_list_singleton in Hin. by injection Hin.
    - apply rbind_Ok in H as ([a1 fx1] & H1 & H). injection H as <- <-. cbn [fst snd] in *. exfalso.
      unfold actor_on_block in H1. apply rbind_Ok in H1 as ([a2 fx2] & H1 & H2).
      apply rbind_Ok in H2 as (d & _ & H2). injection H2 as <- <-. cbn [fst snd] in *.
      apply loop_fx in H1 as [_ Hs]. apply elem_of_app in Hin as [Hin|Hin]; [|by apply (no_ses_none _ slot k Hs)].
      destruct g; [|by apply elem_of_nil in Hin]. by apply elem_of_list_singleton in Hin.
    - apply rbind_Ok in H as ([n1 fx1] & H1 & H). cbn [fst snd] in H.
      assert (fx_session slot k ∉ fx1) as Hn.
      { intros Hx. destruct (on_gossip_attestation E (ac_node a) sa (w_aggregator W)) as [n'|e|]; [| |done]; injection H1 as <- <-.
        - by apply elem_of_list_singleton in Hx.
        - by apply elem_of_nil in Hx. }
      destruct (_ =? _) in H; [|by injection H as <- <-].
      apply rbind_Ok in H as ([a2 fx2] & H2 & H). injection H as <- <-. cbn [fst snd] in *.
      apply elem_of_app in Hin as [Hin|Hin]; [done|].
      pose proof (early_goes _ _ _ _ _ H2) as (G1 & _ & _ & G2 & _).
      apply (early_session _ _ _ _ slot k) in H2; [|done]. by exists (with_node a n1), fx2.
    - exfalso. destruct (on_gossip_aggregated_attestation E (ac_node a) sg) as [n'|e|]; [| |done]; injection H as <- <-.
      + by apply elem_of_list_singleton in Hin.
      + by apply elem_of_nil in Hin.
    - pose proof (early_goes _ _ _ _ _ H) as (G1 & _ & _ & G2 & _).
      exists a, fx. split_and!; [by eapply early_session|done|done|done].
    - exfalso. case_bool_decide; [|injection H as <- <-; by apply elem_of_nil in Hin].
      apply rbind_Ok in H as (n' & H1 & H). injection H as <- <-.
      apply elem_of_cons in Hin as [Hin|Hin]; [done|]. by apply elem_of_list_singleton in Hin.
  Qed.
  Lemma session_size W a m a' fx slot k : reach (ac_node a) -> vals <> [] -> actor_step E C W a m = Ok (a', fx) ->
    fx_session slot k ∈ fx ->
    (k = 1 \/ k = 2) /\
    (k = 1 <-> (exists v, v ∈ cf_own C /\ v = (slot + 1) mod lenN vals) /\ (cf_gate C = false \/ ac_syncing a' = false)).
  Proof using Hgood Hvals.
    intros Hr Hne H Hin. pose proof (step_goes _ _ _ _ _ _ _ H) as Hr'. assert (reach (ac_node a')) as Hr2 by (by eapply reach_goes).
    apply (from_session _ _ _ _ _ slot k) in H as (a1 & fx1 & H1 & Hin1 & Hnd & Hsy); [|done].
    unfold start_aggregation_session in H1. apply rbind_Ok in H1 as (p & Hp & H1).
    unfold get_our_proposer in Hp. apply rbind_Ok in Hp as (s & Hs & Hp). rewrite <- Hnd in Hs.
    apply (head_vals _ _ Hr2) in Hs. rewrite Hs in Hp. injection Hp as <-.
    destruct (w_jobs _ _ _ _); injection H1 as _ <-; [|by apply elem_of_nil in Hin1].
    apply elem_of_list_singleton in Hin1. injection Hin1 as ->.
    assert (duties_allowed C a1 = true <-> cf_gate C = false \/ ac_syncing a' = false) as Hda.
    { rewrite Hsy. unfold duties_allowed, duties_allowed_. destruct (cf_gate C), (ac_syncing a1); cbn; naive_solver. }
    destruct (List.find _ _) as [u|] eqn:Hf.
    - apply List.find_some in Hf as [Hu Hpr]. unfold is_proposer in Hpr. apply bool_decide_eq_true in Hpr.
      destruct (duties_allowed C a1); (split; [by auto|]).
      + split; [|done]. intros _. split; [|by apply Hda]. exists u. split; [by apply elem_of_list_In|].
        unfold current_proposer in Hpr. destruct (0 <? lenN vals); [congruence|done].
      + split; [done|]. intros [_ Hx]. by apply Hda in Hx.
    - split; [auto|]. split; [done|]. intros [(v & Hv & ->) _].
      pose proof (List.find_none _ _ Hf _ ltac:(by apply elem_of_list_In)) as Hn. cbn beta in Hn.
      unfold is_proposer, current_proposer in Hn.
      destruct (N.ltb_spec 0 (lenN vals)) as [_|Hz]; [by rewrite bool_decide_eq_true_2 in Hn|].
      destruct vals; [done|]. unfold lenN in Hz. cbn in Hz. lia.
  Qed.
  (** The session of the aggregation interval. *)
  Lemma session_held W a a' fx : reach (ac_node a) -> vals <> [] -> actor_step E C W a m_tick = Ok (a', fx) ->
    let i := wall_interval W a in
    db_time (nd_db (ac_node a)) < i -> i mod 5 = 2 -> w_aggregator W = true -> ac_session a <> Some (i / 5) ->
    exists k, (if w_jobs W (ac_node a') (i / 5) k then fx_session (i / 5) k ∈ fx else sessions fx = []).
  Proof using Hgood Hvals.
    cbn zeta. intros Hr Hne H Hlt Hm Hag Hses.
    destruct (tick_runs W a a' fx Hr Hne H Hlt) as (hp & n2 & a2 & ev & fx2 & Hon & Hn2 & Hr2 & Ht & Hsy & Hse & -> & Hd).
    destruct (interval_cases (wall_interval W a)) as [[Hi Hm']|[[Hi Hm']|[[Hi Hm']|[[Hi Hm']|[Hi Hm']]]]]; try lia.
    rewrite Hi in Hd. cbn [interval_duty] in Hd. rewrite Hag in Hd.
    rewrite bool_decide_eq_false_2 in Hd by (by rewrite Hse). cbn [negb andb] in Hd.
    pose proof (session_goes _ _ _ _ _ _ Hd) as (G1 & _). rewrite G1.
    unfold start_aggregation_session in Hd. apply rbind_Ok in Hd as (p & _ & Hd).
    exists (match p with Some _ => if duties_allowed C a2 then 1 else 2 | None => 2 end).
    destruct (w_jobs _ _ _ _); injection Hd as _ <-.
    - apply elem_of_app. right. by left.
    - rewrite app_nil_r. apply no_ses_events.
  Qed.
End Once.
