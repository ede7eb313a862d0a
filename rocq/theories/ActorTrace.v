(** The actor as a sequence of node events. *)
From Verif Require Export ActorProofs.

(** Events about the chain, among the effects. *)
Definition chain_event (x : Effect) : option ChainEvent :=
  match x with
  | fx_event (CeHead s b r) => Some (CeHead s b r)
  | fx_event (CeBlock s b) => Some (CeBlock s b)
  | fx_event (CeJustified s b r) => Some (CeJustified s b r)
  | fx_event (CeFinalized s b r) => Some (CeFinalized s b r)
  | _ => None
  end.
Definition chain_events (fx : list Effect) : list ChainEvent := omap chain_event fx.

Lemma events_app l l' : chain_events (l ++ l') = chain_events l ++ chain_events l'.
Proof. apply omap_app. Qed.
Lemma events_diff d d' w : chain_events (map fx_event (diff_and_emit d d' w)) = diff_and_emit d d' w.
Proof.
  unfold diff_and_emit. rewrite !map_app, !events_app. f_equal; [|f_equal].
  - destruct (_ =? _); [done|]. destruct (get_header _ _); [|done]. by destruct (_ <=? _).
  - case_bool_decide; [done|]. by destruct (get_header _ _).
  - case_bool_decide; [done|]. by destruct (get_header _ _).
Qed.

Section Trace.
  Context (E : Env) (C : Config).
  Notation root_ := (block_root (e_header E) (e_body E)).

  (** The chain events a node event comes with; [s] is the wall clock's slot. *)
  Definition emitted (n : Node) (e : node_event) (n' : Node) (cs : list ChainEvent) : Prop :=
    match e with
    | ev_block sb =>
        (exists er, on_block E n sb = Err er) /\ cs = [] \/
        on_block E n sb = Ok n' /\ exists s, cs =
          (if has_state (tab n) (root_ (sb_block sb)) then [] else [CeBlock (b_slot (sb_block sb)) (root_ (sb_block sb))])
          ++ diff_and_emit (nd_db n) (nd_db n') s
    | ev_tick _ _ | ev_propose _ => exists s, cs = diff_and_emit (nd_db n) (nd_db n') s
    | ev_restart => False
    | _ => cs = []
    end.
  Inductive traced (n : Node) : list (node_event * list ChainEvent) -> Node -> Prop :=
  | tr_nil : traced n [] n
  | tr_cons e cs n1 tr n2 :
      node_step E n e = Ok n1 -> emitted n e n1 cs -> traced n1 tr n2 -> traced n ((e, cs) :: tr) n2.
  (** Some events lead from [n] to [n'] and the effects are theirs. *)
  Definition goes (n : Node) (fx : list Effect) (n' : Node) : Prop :=
    exists tr, traced n tr n' /\ chain_events fx = concat (map snd tr).

  Lemma traced_app n tr n1 tr' n2 : traced n tr n1 -> traced n1 tr' n2 -> traced n (tr ++ tr') n2.
  Proof. induction 1; intros H2; [done|]. cbn. econstructor; eauto. Qed.
  Lemma traced_run n tr n' : traced n tr n' -> node_run E n (map fst tr) n'.
  Proof.
    induction 1 as [|n e cs n1 tr n2 Hs _ _ IH]; [constructor|]. cbn [map fst].
    change (e :: map fst tr) with ([e] ++ map fst tr). eapply run_app; [by apply run_one|done].
  Qed.
  Lemma goes_refl n fx : chain_events fx = [] -> goes n fx n.
  Proof. exists []. split; [constructor|done]. Qed.
  Lemma goes_trans n fx n1 fx' n2 : goes n fx n1 -> goes n1 fx' n2 -> goes n (fx ++ fx') n2.
  Proof.
    intros (t1 & H1 & E1) (t2 & H2 & E2). exists (t1 ++ t2). split; [by eapply traced_app|].
    by rewrite events_app, E1, E2, map_app, concat_app.
  Qed.
  Lemma goes_one n e n' fx : node_step E n e = Ok n' -> emitted n e n' (chain_events fx) -> goes n fx n'.
  Proof.
    intros H1 H2. exists [(e, chain_events fx)]. split; [|by cbn; rewrite app_nil_r].
    econstructor; [done|done|constructor].
  Qed.
  Lemma goes_silent n fx n' fx' : goes n fx n' -> chain_events fx' = [] -> goes n (fx ++ fx') n'.
  Proof. intros H1 H2. eapply goes_trans; [exact H1|]. by apply goes_refl. Qed.

  Lemma import_goes W n sb n' fx : import_and_emit E W n sb = Ok (n', fx) -> goes n fx n'.
  Proof.
    unfold import_and_emit. intros H. apply rbind_Ok in H as (n1 & H1 & H). apply rbind_Ok in H as (x & _ & H).
    injection H as <- <-. apply (goes_one _ (ev_block sb)); [cbn; by rewrite H1|]. cbn. right. split; [done|].
    exists (wall_slot n (w_after W)). rewrite events_app, events_diff.
    by destruct (has_state (tab n) (root_ (sb_block sb))).
  Qed.
  Lemma gossip_delete_nil b : gossip_delete b [] = Ok b.
  Proof. destruct b. unfold gossip_delete. cbn. done. Qed.
  Lemma reagg_goes W a sb a' fx : run_reaggregate E C W a sb = Ok (a', fx) ->
    goes (ac_node a) fx (ac_node a') /\ a' = with_node a (ac_node a') /\ nd_db (ac_node a') = nd_db (ac_node a).
  Proof.
    unfold run_reaggregate. destruct (duties_allowed C a); intros H.
    - apply rbind_Ok in H as (n & H1 & H). injection H as <- <-. split_and!; [|done|by apply (batch_db E) in H1].
      apply (goes_one _ (ev_local (w_reagg W (ac_node a) sb) [])).
      + cbn [node_step]. rewrite H1. cbn [rbind]. rewrite gossip_delete_nil. cbn. by destruct n.
      + cbn. destruct (w_aggregator W); [|done]. clear H1. induction (w_reagg W (ac_node a) sb) as [|x l IH]; [done|]. exact IH.
    - injection H as <- <-. split_and!; [by apply goes_refl|by destruct a|done].
  Qed.

  (** The discarding of pending blocks touches the maps only. *)
  Definition maps_only (a a' : Actor) : Prop :=
    ac_node a' = ac_node a /\ ac_syncing a' = ac_syncing a /\ ac_session a' = ac_session a.
  Lemma discard_maps fuel W a r a' : discard fuel W a r = Ok a' -> maps_only a a'.
  Proof.
    revert a r a'. induction fuel as [|f IH]; intros a r a' H; cbn [discard] in H.
    { destruct (ac_pend a !! r); [done|]. by injection H as <-. }
    destruct (ac_pend a !! r) as [cs|]; [|by injection H as <-].
    assert (forall l a0 a', maps_only a a0 ->
      fold_left (fun (r : res unit Actor) c =>
        let! a := r in discard f W (with_maps a (ac_pend a) (delete c (ac_par a))) c) l (Ok a0) = Ok a' ->
      maps_only a a') as Hf.
    { induction l as [|c l IHl]; intros a0 a1 H0 H1; cbn [fold_left] in H1; [by injection H1 as <-|].
      cbn [rbind] in H1.
      destruct (discard f W (with_maps a0 (ac_pend a0) (delete c (ac_par a0))) c) as [a2|e|] eqn:Hd.
      - eapply IHl; [|exact H1]. apply IH in Hd as (E1 & E2 & E3). destruct H0 as (F1 & F2 & F3).
        split_and!; cbn in *; congruence.
      - exfalso. clear -H1. induction l; cbn in H1; [done|]. by apply IHl.
      - exfalso. clear -H1. induction l; cbn in H1; [done|]. by apply IHl. }
    eapply Hf; [|exact H]. done.
  Qed.
  Lemma walk_maps fuel n a r a' x : walk_up E fuel n a r = Ok (a', x) -> maps_only a a'.
  Proof.
    revert a r. induction fuel as [|f IH]; intros a r H; cbn [walk_up] in H.
    - destruct (get_header _ r) as [h|]; [|by injection H as <- _].
      destruct (has_state _ _); [|done]. destruct (get_signed_block _ _ _); [|done]. by injection H as <- _.
    - destruct (get_header _ r) as [h|]; [|by injection H as <- _].
      destruct (has_state _ _).
      + destruct (get_signed_block _ _ _); [|done]. by injection H as <- _.
      + by apply IH in H as (? & ? & ?).
  Qed.

  Lemma pop_goes W a sb a' q fx : process_or_pend_block E C W a sb = Ok (a', q, fx) ->
    goes (ac_node a) fx (ac_node a') /\ ac_syncing a' = ac_syncing a /\ ac_session a' = ac_session a.
  Proof.
    unfold process_or_pend_block. intros H.
    destruct (N.leb_spec (b_slot (sb_block sb)) (cp_slot (db_fin (nd_db (ac_node a))))) as [Hle|Hgt].
    { apply rbind_Ok in H as (a1 & H1 & H). injection H as <- <- <-. apply discard_maps in H1 as (-> & ? & ?).
      split; [by apply goes_refl|done]. }
    destruct (N.ltb_spec (db_time (nd_db (ac_node a)) + GOSSIP_DISPARITY_INTERVALS)
                         (saturating_mul (b_slot (sb_block sb)) INTERVALS_PER_SLOT)) as [Hf|Hf].
    { apply rbind_Ok in H as (a1 & H1 & H). injection H as <- <- <-. apply discard_maps in H1 as (-> & ? & ?).
      split; [by apply goes_refl|done]. }
    destruct (has_state (tab (ac_node a)) (b_parent (sb_block sb))) eqn:Hp; cbn [negb] in H.
    - destruct (import_and_emit E W (ac_node a) sb) as [[n' fx1]|e|] eqn:Hpb; [| |done].
      + apply rbind_Ok in H as ([a1 fx2] & Hr & H). apply reagg_goes in Hr as (Hg & Ha & _).
        cbn [fst snd] in *. apply import_goes in Hpb.
        assert (goes (ac_node a) (fx1 ++ fx2) (ac_node a1)) as Hgo by (by eapply goes_trans).
        unfold collect_pending_children in H. rewrite Ha in *. cbn [ac_pend with_node] in H.
        destruct (ac_pend a !! _) as [cs|]; cbn [fst snd] in H; injection H as <- <- <-; done.
      + injection H as <- <- <-. split; [by apply goes_refl|done].
    - apply rbind_Ok in H as (m & Hc & H). apply rbind_Ok in H as ([a1 x] & Hw & H).
      apply walk_maps in Hw as (Hn & Hs & Hse). cbn [fst snd ac_node ac_syncing ac_session] in *.
      assert (goes (ac_node a) [] (ac_node a1)) as Hgo.
      { apply (goes_one _ (ev_pending sb)); [|done]. cbn. unfold pends.
        rewrite (proj2 (N.ltb_lt _ _)) by done. rewrite (proj2 (N.leb_le _ _)) by done. rewrite Hp. cbn.
        by rewrite Hn. }
      assert (forall r, goes (ac_node a) [fx_fetch r] (ac_node a1)) as Hgo2.
      { intros r. change [fx_fetch r] with ([] ++ [fx_fetch r]). by apply goes_silent. }
      destruct x as [sb'|r]; injection H as <- <- <-; done.
  Qed.

  Lemma loop_goes fuel W a q a' fx : block_loop E C fuel W a q = Ok (a', fx) ->
    goes (ac_node a) fx (ac_node a') /\ ac_syncing a' = ac_syncing a /\ ac_session a' = ac_session a.
  Proof.
    revert a q fx. induction fuel as [|f IH]; intros a [|sb q] fx H; cbn [block_loop] in H; try done;
      try (injection H as <- <-; split; [by apply goes_refl|done]).
    apply rbind_Ok in H as ([[a1 q1] fx1] & H1 & H). apply rbind_Ok in H as ([a2 fx2] & H2 & H).
    cbn [fst snd] in *. injection H as <- <-. apply pop_goes in H1 as (G1 & S1 & T1).
    apply IH in H2 as (G2 & S2 & T2). split; [by eapply goes_trans|]. split; congruence.
  Qed.
  Lemma on_block_goes W a sb a' fx : actor_on_block E C W a sb = Ok (a', fx) ->
    goes (ac_node a) fx (ac_node a') /\ ac_syncing a' = ac_syncing a /\ ac_session a' = ac_session a.
  Proof.
    unfold actor_on_block. intros H. apply rbind_Ok in H as ([a1 fx1] & H1 & H).
    apply rbind_Ok in H as (d & Hd & H). cbn [fst snd] in *. injection H as <- <-.
    apply loop_goes in H1 as (G1 & S1 & T1). split; [|done]. cbn [ac_node with_node].
    rewrite <- (app_nil_r fx1). eapply goes_trans; [exact G1|]. apply (goes_one _ ev_prune); [|done].
    cbn [node_step]. by rewrite Hd.
  Qed.

  Lemma session_goes W a slot a' fx : start_aggregation_session C W a slot = Ok (a', fx) ->
    ac_node a' = ac_node a /\ ac_pend a' = ac_pend a /\ ac_par a' = ac_par a /\
    ac_syncing a' = ac_syncing a /\ chain_events fx = [].
  Proof.
    unfold start_aggregation_session. intros H. apply rbind_Ok in H as (p & _ & H).
    destruct (w_jobs _ _ _ _); by injection H as <- <-.
  Qed.
  Lemma early_goes W a a' fx : maybe_start_early_aggregation C W a = Ok (a', fx) ->
    ac_node a' = ac_node a /\ ac_pend a' = ac_pend a /\ ac_par a' = ac_par a /\
    ac_syncing a' = ac_syncing a /\ chain_events fx = [].
  Proof.
    unfold maybe_start_early_aggregation. intros H.
    destruct (negb _); [by injection H as <- <-|]. destruct (_ <? _); [by injection H as <- <-|].
    destruct (_ || _); [by injection H as <- <-|]. case_bool_decide; [by injection H as <- <-|].
    apply rbind_Ok in H as (s & _ & H). destruct (_ || _); [by injection H as <- <-|]. by apply session_goes in H.
  Qed.

  Lemma votes_goes W n data agg vs n' fx : publish_votes E W n data agg vs = Ok (n', fx) -> goes n fx n'.
  Proof.
    revert n fx. induction vs as [|v vs IH]; intros n fx H; cbn [publish_votes] in H.
    { injection H as <- <-. by apply goes_refl. }
    destruct (w_sign W v data) as [sig|]; [|by apply IH].
    apply rbind_Ok in H as (n1 & H1 & H). apply rbind_Ok in H as ([n2 fx2] & H2 & H). injection H as <- <-.
    apply IH in H2. cbn [fst snd]. change (fx_publish_att (mkSA v data sig) :: fx2) with ([fx_publish_att (mkSA v data sig)] ++ fx2).
    eapply goes_trans; [|exact H2]. destruct agg.
    - apply (goes_one _ (ev_attestation (mkSA v data sig) true)); [|done]. cbn [node_step].
      destruct (on_gossip_attestation E n (mkSA v data sig) true); cbn in *; congruence.
    - injection H1 as <-. by apply goes_refl.
  Qed.
  Lemma propose_goes W a slot v a' fx : propose_block E W a slot v = Ok (a', fx) ->
    goes (ac_node a) fx (ac_node a') /\ a' = with_node a (ac_node a').
  Proof.
    unfold propose_block. intros H. apply rbind_Ok in H as ([n1 h] & H1 & H). cbn [fst] in *.
    assert (goes (ac_node a) (map fx_event (diff_and_emit (nd_db (ac_node a)) (nd_db n1) slot)) n1) as G1.
    { apply (goes_one _ (ev_propose slot)); [cbn [node_step]; by rewrite H1|]. cbn. exists slot. apply events_diff. }
    destruct (w_build W n1 slot v) as [sb|]; [|by injection H as <- <-].
    destruct (import_and_emit E W n1 sb) as [[n2 fx2]|e|] eqn:Hpb; [|by injection H as <- <-|done].
    injection H as <- <-. apply import_goes in Hpb. split; [|done]. cbn [ac_node with_node].
    eapply goes_trans; [exact G1|]. by apply goes_silent.
  Qed.

  Lemma interval_goes W a slot i a' fx : interval_duty E C W a slot i = Ok (a', fx) ->
    goes (ac_node a) fx (ac_node a') /\ ac_pend a' = ac_pend a /\ ac_par a' = ac_par a /\
    ac_syncing a' = ac_syncing a.
  Proof.
    unfold interval_duty. intros H. destruct i.
    - injection H as <- <-. split; [by apply goes_refl|done].
    - destruct (duties_allowed C a); [|injection H as <- <-; split; [by apply goes_refl|done]].
      unfold produce_attestations in H. apply rbind_Ok in H as (data & _ & H).
      apply rbind_Ok in H as ([n1 fx1] & H1 & H). injection H as <- <-. by apply votes_goes in H1.
    - destruct (_ && _); [|injection H as <- <-; split; [by apply goes_refl|done]].
      apply session_goes in H as (-> & -> & -> & -> & Hc). split; [by apply goes_refl|done].
    - injection H as <- <-. split; [by apply goes_refl|done].
    - apply rbind_Ok in H as (p & _ & H). destruct p as [v|]; [|injection H as <- <-; split; [by apply goes_refl|done]].
      destruct (duties_allowed C a); [|injection H as <- <-; split; [by apply goes_refl|done]].
      apply propose_goes in H as [Hg ->]. done.
  Qed.

  Lemma tick_goes W a a' fx : actor_on_tick E C W a = Ok (a', fx) ->
    goes (ac_node a) fx (ac_node a') /\ ac_pend a' = ac_pend a /\ ac_par a' = ac_par a.
  Proof.
    unfold actor_on_tick. intros H. destruct (_ && _) in H; [injection H as <- <-; split; [by apply goes_refl|done]|].
    apply rbind_Ok in H as (s & _ & H). destruct (s_validators s); [injection H as <- <-; split; [by apply goes_refl|done]|].
    apply rbind_Ok in H as (a1 & Hu & H). apply rbind_Ok in H as (pr & _ & H). apply rbind_Ok in H as (n2 & Ht & H).
    apply rbind_Ok in H as ([a2 fx2] & Hd & H). apply rbind_Ok in H as (? & _ & H). apply rbind_Ok in H as (? & _ & H).
    injection H as <- <-. cbn [fst snd] in *. apply interval_goes in Hd as (Hg & Hp & Hq & _). cbn in Hg, Hp, Hq.
    unfold update_sync_status in Hu. apply rbind_Ok in Hu as (? & _ & Hu). injection Hu as <-. cbn in Hp, Hq.
    split_and!; [|done|done]. eapply goes_trans; [|exact Hg].
    apply (goes_one _ (ev_tick (w_now W) pr)); [done|]. cbn. eexists. apply events_diff.
  Qed.

  Lemma step_goes W a m a' fx : actor_step E C W a m = Ok (a', fx) -> goes (ac_node a) fx (ac_node a').
  Proof.
    unfold actor_step. intros H. destruct m as [|sb g|sa|sg| |id data p parts keys].
    - by apply tick_goes in H as [? _].
    - apply rbind_Ok in H as ([a1 fx1] & H1 & H). injection H as <- <-. apply on_block_goes in H1 as [Hg _].
      cbn [fst snd]. eapply goes_trans; [|exact Hg]. apply goes_refl. by destruct g.
    - apply rbind_Ok in H as ([n1 fx1] & H1 & H). cbn [fst snd] in *.
      assert (goes (ac_node a) fx1 n1) as G1.
      { destruct (on_gossip_attestation E (ac_node a) sa (w_aggregator W)) as [n'|e|] eqn:Ho; [| |done];
          injection H1 as <- <-; [|by apply goes_refl].
        apply (goes_one _ (ev_attestation sa (w_aggregator W))); [|done]. cbn. by rewrite Ho. }
      destruct (_ =? _) in H; [|by injection H as <- <-].
      apply rbind_Ok in H as ([a2 fx2] & H2 & H). injection H as <- <-. apply early_goes in H2 as (-> & _ & _ & _ & He).
      cbn [ac_node with_node fst snd]. by apply goes_silent.
    - destruct (on_gossip_aggregated_attestation E (ac_node a) sg) as [n'|e|] eqn:Ho; [| |done];
        injection H as <- <-; [|by apply goes_refl].
      apply (goes_one _ (ev_aggregate sg)); [|done]. cbn. by rewrite Ho.
    - apply early_goes in H as (-> & _ & _ & _ & He). by apply goes_refl.
    - case_bool_decide; [|injection H as <- <-; by apply goes_refl].
      apply rbind_Ok in H as (n' & H1 & H). injection H as <- <-.
      apply (goes_one _ (ev_local [(data, p)] keys)); [|done]. cbn [node_step insert_new_batch].
      unfold apply_aggregated_group in H1. apply rbind_Ok in H1 as (n1 & H2 & H1). rewrite H2. cbn [rbind]. done.
  Qed.
End Trace.
