(** Proofs about the aggregator role. *)
From Verif Require Export RoleSpec ActorDuty.

(** ** The endpoint *)
Definition get_last (k : string) (l : list (string * Json)) : option Json :=
  fold_left (fun o p => if String.eqb p.1 k then Some p.2 else o) l None.
Lemma get_last_spec l k v :
  get_last k l = Some v <-> exists l1 l2, l = l1 ++ (k, v) :: l2 /\ forall p, p ∈ l2 -> p.1 <> k.
Proof.
  unfold get_last. induction l as [|p l IH] using rev_ind.
  - cbn [fold_left]. split; [done|]. intros (l1 & l2 & H & _). by destruct l1.
  - rewrite fold_left_app. cbn [fold_left]. destruct (String.eqb_spec p.1 k) as [Hp|Hp].
    + split.
      * intros [= <-]. exists l, []. split; [destruct p; cbn in *; by subst|]. intros q Hq. by apply elem_of_nil in Hq.
      * intros (l1 & l2 & H & Hl). destruct l2 as [|q l2 _] using rev_ind.
        -- apply app_inj_tail in H as [_ ->]. done.
        -- rewrite app_comm_cons, app_assoc in H. apply app_inj_tail in H as [_ ->].
           exfalso. apply (Hl q); [|done]. rewrite elem_of_app, elem_of_list_singleton. by right.
    + rewrite IH. split.
      * intros (l1 & l2 & -> & Hl). exists l1, (l2 ++ [p]). split; [by rewrite <- app_assoc|].
        intros q Hq. apply elem_of_app in Hq as [Hq|Hq]; [by apply Hl|]. by apply elem_of_list_singleton in Hq as ->.
      * intros (l1 & l2 & H & Hl). destruct l2 as [|q l2 _] using rev_ind.
        -- apply app_inj_tail in H as [_ ->]. done.
        -- rewrite app_comm_cons, app_assoc in H. apply app_inj_tail in H as [-> ->].
           exists l1, l2. split; [done|]. intros q' Hq. apply Hl. rewrite elem_of_app. by left.
Qed.

Lemma asks_fun b v v' : asks b v -> asks b v' -> v = v'.
Proof.
  intros (l1 & l2 & -> & H) (l1' & l2' & E & H'). injection E as E.
  assert (get_last "enabled" (l1 ++ ("enabled"%string, j_bool v) :: l2) = Some (j_bool v)) as G1
    by (apply get_last_spec; eauto).
  rewrite E in G1.
  assert (get_last "enabled" (l1' ++ ("enabled"%string, j_bool v') :: l2') = Some (j_bool v')) as G2
    by (apply get_last_spec; eauto).
  congruence.
Qed.
Lemma post_spec old b :
  (exists v, asks b v /\ post_aggregator (Some old) b = (Some v, a_toggle v old)) \/
  ((forall v, ~ asks b v) /\ exists c, (c = 400 \/ c = 415) /\ post_aggregator (Some old) b = (Some old, a_error c)).
Proof.
  destruct b as [| | |v]; cbn [post_aggregator].
  1-3: right; split; [by intros v (? & ? & ? & _)|eauto].
  destruct (json_get "enabled" v) as [x|] eqn:Hg.
  - destruct v as [| | | | |l]; cbn [json_get] in Hg; try done. apply get_last_spec in Hg as (l1 & l2 & -> & Hl).
    destruct (as_bool x) as [e|] eqn:Hb.
    + left. exists e. destruct x; cbn in Hb; try done. injection Hb as ->. split; [|done]. by exists l1, l2.
    + right. split; [|eauto]. intros e (l1' & l2' & E & Hl'). injection E as E.
      assert (get_last "enabled" (l1 ++ ("enabled"%string, x) :: l2) = Some x) as G1 by (apply get_last_spec; eauto).
      rewrite E in G1.
      assert (get_last "enabled" (l1' ++ ("enabled"%string, j_bool e) :: l2') = Some (j_bool e)) as G2
        by (apply get_last_spec; eauto).
      rewrite G1 in G2. injection G2 as ->. done.
  - right. split; [|eauto]. intros e (l1 & l2 & Eq & Hl). injection Eq as ->. cbn [json_get] in Hg.
    assert (get_last "enabled" (l1 ++ ("enabled"%string, j_bool e) :: l2) = Some (j_bool e)) as G
      by (apply get_last_spec; eauto).
    unfold get_last in G. by rewrite G in Hg.
Qed.

Section Run.
  Context (E : Env) (C : Config).

  Lemma role_app_inv cli l x f : role_after cli (l ++ [x]) f ->
    exists g, role_after cli l g /\
      match x.1 with
      | y_post b => asks b f \/ ((forall v, ~ asks b v) /\ f = g)
      | _ => f = g
      end.
  Proof.
    intros H. remember (l ++ [x]) as l0 eqn:El.
    destruct H as [|l' g b v o H1 H2|l' g b o H1 H2|l' g o H1|l' g W m o H1]; [by destruct l|..];
      apply app_inj_tail in El as [-> <-]; exists g; (split; [done|]); cbn [fst]; auto.
  Qed.
  Lemma role_total cli l : exists f, role_after cli l f.
  Proof.
    induction l as [|[e o] l [f IH]] using rev_ind; [eexists; constructor|]. destruct e as [|b|W m].
    - eexists. by apply (ra_get cli l f).
    - destruct (post_spec false b) as [(v & Hv & _)|(Hn & _)].
      + eexists. by apply (ra_set cli l f b v).
      + eexists. by apply (ra_bad cli l f b).
    - eexists. by apply (ra_message cli l f).
  Qed.
  Lemma role_flag cli n l s f :
    sys_run E C (boot cli n) l s -> role_after cli l f -> y_flag s = f.
  Proof.
    intros H. revert f. induction H as [|l s1 e o s2 Hr IH Hs]; intros f Hf.
    - remember [] as l0 eqn:El. destruct Hf as [|l'|l'|l'|l']; [done|..]; by destruct l'.
    - apply role_app_inv in Hf as (g & Hg & Hx). specialize (IH _ Hg). cbn [fst] in Hx.
      destruct e as [|b|W m]; cbn [sys_step] in Hs.
      + injection Hs as <- _. congruence.
      + destruct (post_spec (y_flag s1) b) as [(v & Hv & Hp)|(Hn & c & _ & Hp)]; rewrite Hp in Hs; cbn in Hs; injection Hs as <- _; cbn [y_flag].
        * destruct Hx as [Hx|[Hx _]]; [by eapply asks_fun|by apply Hx in Hv].
        * destruct Hx as [Hx|[_ ->]]; [by apply Hn in Hx|done].
      + apply rbind_Ok in Hs as (x & _ & Hs). injection Hs as <- _. cbn. congruence.
  Qed.
  Lemma run_take s l s' i x : sys_run E C s l s' -> l !! i = Some x ->
    exists s1 s2, sys_run E C s (take i l) s1 /\ sys_step E C s1 x.1 = Ok (s2, x.2).
  Proof.
    intros H. revert i x. induction H as [|l s1 e o s2 Hr IH Hs]; intros i x Hx; [done|].
    destruct (decide (i < length l)%nat) as [Hi|Hi].
    - rewrite lookup_app_l in Hx by done. rewrite take_app_le by lia. by apply IH.
    - rewrite lookup_app_r in Hx by lia. destruct (i - length l)%nat as [|k] eqn:Hk; [|by destruct k].
      cbn in Hx. injection Hx as <-. assert (i = length l) as -> by lia. rewrite take_app. eauto.
  Qed.
  Lemma answers_pf cli n l s :
    sys_run E C (boot cli n) l s ->
    (forall f, role_after cli l f -> y_flag s = f) /\
    (forall i e o, l !! i = Some (e, o) -> exists f, role_after cli (take i l) f /\
      match e with
      | y_get => o = o_answer (a_status f)
      | y_post b => (exists v, asks b v /\ o = o_answer (a_toggle v f)) \/
          ((forall v, ~ asks b v) /\ (o = o_answer (a_error 400) \/ o = o_answer (a_error 415)))
      | y_message W m => exists fx, o = o_effects fx
      end).
  Proof.
    intros H. split; [intros f; by apply (role_flag cli n)|]. intros i e o Hi.
    destruct (run_take _ _ _ _ _ H Hi) as (s1 & s2 & H1 & H2). destruct (role_total cli (take i l)) as [f Hf].
    exists f. split; [done|]. pose proof (role_flag _ _ _ _ _ H1 Hf) as <-. cbn [fst snd] in H2.
    destruct e as [|b|W m]; cbn [sys_step] in H2.
    - by injection H2 as _ <-.
    - destruct (post_spec (y_flag s1) b) as [(v & Hv & Hp)|(Hn & c & Hc & Hp)]; rewrite Hp in H2; cbn in H2; injection H2 as _ <-.
      + left. eauto.
      + right. split; [done|]. destruct Hc as [->| ->]; auto.
    - apply rbind_Ok in H2 as (x & _ & H2). injection H2 as _ <-. eauto.
  Qed.
End Run.

(** ** Without the role *)
Definition no_new (g g' : Buf GossipEntry) : Prop :=
  forall r e' v sig, bf_data g' !! r = Some e' -> ge_sigs e' !! v = Some sig ->
    exists e, bf_data g !! r = Some e /\ ge_sigs e !! v = Some sig.
Lemma no_new_refl g : no_new g g. Proof. intros r e' v sig. eauto. Qed.
Lemma no_new_trans g g1 g2 : no_new g g1 -> no_new g1 g2 -> no_new g g2.
Proof. intros H1 H2 r e' v sig H3 H4. destruct (H2 _ _ _ _ H3 H4) as (e & H5 & H6). by eapply H1. Qed.
Lemma prune_no_new f g x : gossip_prune f g = Ok x -> no_new g x.1.
Proof.
  unfold gossip_prune, buf_prune. destruct (_ <? _); [done|]. intros [= <-] r e' v sig H1 H2. cbn in H1.
  apply map_filter_lookup_Some in H1 as [H1 _]. eauto.
Qed.
Lemma delete_no_new g keys g' : gossip_delete g keys = Ok g' -> no_new g g'.
Proof.
  unfold gossip_delete. intros H. apply rbind_Ok in H as ([[data total] emptied] & H & Heq). injection Heq as <-.
  unfold no_new. cbn [bf_data]. revert H. generalize (bf_total g) (∅ : gset H256). generalize (bf_data g) as d. clear g.
  induction keys as [|[v0 r0] keys IH]; intros d t em H; cbn [delete_loop] in H.
  { injection H as <- _ _. eauto. }
  destruct (d !! r0) as [e0|] eqn:He0; [|by eapply IH]. destruct (_ && _); [done|].
  case_bool_decide as Hs.
  - intros r e' v sig H1 H2. destruct (IH _ _ _ H r e' v sig H1 H2) as (e & H3 & H4).
    apply lookup_delete_Some in H3 as [_ H3]. eauto.
  - intros r e' v sig H1 H2. destruct (IH _ _ _ H r e' v sig H1 H2) as (e & H3 & H4).
    destruct (decide (r = r0)) as [->|Hne].
    + rewrite lookup_insert in H3. injection H3 as <-. cbn in H4. apply lookup_delete_Some in H4 as [_ H4]. eauto.
    + rewrite lookup_insert_ne in H3 by done. eauto.
Qed.

Lemma expect_Ok {F F' A} (r : res F A) (x : A) : (expect r : res F' A) = Ok x -> r = Ok x.
Proof. destruct r; cbn; congruence. Qed.

Section Off.
  Context (E : Env) (C : Config).
  Definition nn (n n' : Node) : Prop := no_new (nd_gossip n) (nd_gossip n').
  Lemma nn_refl n n' : nd_gossip n' = nd_gossip n -> nn n n'.
  Proof. unfold nn. intros ->. apply no_new_refl. Qed.
  Lemma nn_trans n n1 n2 : nn n n1 -> nn n1 n2 -> nn n n2.
  Proof. apply no_new_trans. Qed.

  Lemma update_head_nn n n' : update_head n = Ok n' -> nn n n'.
  Proof.
    unfold update_head. intros H. apply rbind_Ok in H as (h & _ & H). apply rbind_Ok in H as (fin & _ & H).
    apply expect_Ok in H. unfold update_checkpoints in H. apply rbind_Ok in H as (d & _ & H).
    unfold prune_pools in H. destruct (finalization_advanced _ _) as [f|]; [|injection H as <-; by apply nn_refl].
    apply rbind_Ok in H as (g & Hg & H). apply rbind_Ok in H as (nw & _ & H). apply rbind_Ok in H as (k & _ & H).
    injection H as <-. unfold nn. cbn in *. by eapply prune_no_new.
  Qed.
  Lemma accept_nn n n' : accept_new_attestations E n = Ok n' -> nn n n'.
  Proof.
    unfold accept_new_attestations. intros H. apply rbind_Ok in H as (p & _ & H). by apply update_head_nn in H.
  Qed.
  Lemma tick_once_nn n hp last n' : tick_once E n hp last = Ok n' -> nn n n'.
  Proof.
    unfold tick_once. intros H. destruct (interval_of _).
    - destruct (_ && _); [by apply accept_nn in H|]. injection H as <-. by apply nn_refl.
    - injection H as <-. by apply nn_refl.
    - injection H as <-. by apply nn_refl.
    - unfold update_safe_target in H. apply rbind_Ok in H as ([s|] & _ & H); [|done].
      destruct (safe_target _ _ _ _); [|done]. injection H as <-. by apply nn_refl.
    - by apply accept_nn in H.
  Qed.
  Lemma tick_loop_nn k n hp n' : tick_loop E k n hp = Ok n' -> nn n n'.
  Proof.
    revert n. induction k as [|k IH]; intros n1 H; cbn [tick_loop] in H; [injection H as <-; by apply nn_refl|].
    apply rbind_Ok in H as (n2 & H1 & H). apply tick_once_nn in H1. eapply nn_trans; [exact H1|]. by apply IH.
  Qed.
  Lemma on_tick_nn n ts hp n' : on_tick E n ts hp = Ok n' -> nn n n'.
  Proof. unfold on_tick. intros H. apply tick_loop_nn in H. by destruct (_ <? _) in H. Qed.
  Lemma on_block_nn n sb n' : on_block E n sb = Ok n' -> nn n n'.
  Proof.
    unfold on_block. intros H. apply rbind_Ok in H as ([post|] & _ & H); [|injection H as <-; by apply nn_refl].
    apply rbind_Ok in H as (d1 & _ & H). apply rbind_Ok in H as (d3 & _ & H). apply expect_Ok in H.
    by apply update_head_nn in H.
  Qed.
  Lemma insert_nn n a p n' : insert_new_aggregated_payload E n a p = Ok n' -> nn n n'.
  Proof. unfold insert_new_aggregated_payload. intros H. apply rbind_Ok in H as (b & _ & H). injection H as <-. by apply nn_refl. Qed.
  Lemma batch_nn n l n' : insert_new_batch E n l = Ok n' -> nn n n'.
  Proof.
    revert n. induction l as [|[a p] l IH]; intros n H; cbn [insert_new_batch] in H; [injection H as <-; by apply nn_refl|].
    apply rbind_Ok in H as (n1 & H1 & H). apply insert_nn in H1. apply IH in H. by eapply nn_trans.
  Qed.
  Lemma vote_nn n sa n' : on_gossip_attestation E n sa false = Ok n' -> n' = n.
  Proof.
    unfold on_gossip_attestation. intros H. apply rbind_Ok in H as (? & _ & H). apply rbind_Ok in H as ([s|] & _ & H); [|done].
    destruct (getN _ _); [|done]. repeat (destruct (negb _) in H; [done|]). destruct (_ <=? _); [done|].
    repeat (destruct (negb _) in H; [done|]). by injection H as <-.
  Qed.

  Lemma aggregates_app l l' : aggregates (l ++ l') = aggregates l ++ aggregates l'.
  Proof. apply omap_app. Qed.
  Lemma aggregates_events l : aggregates (map fx_event l) = [].
  Proof. induction l; [done|]. exact IHl. Qed.

  Definition off (n n' : Node) (fx : list Effect) : Prop := nn n n' /\ aggregates fx = [].
  Lemma off_trans n n1 n2 fx fx' : off n n1 fx -> off n1 n2 fx' -> off n n2 (fx ++ fx').
  Proof. intros [H1 H2] [H3 H4]. split; [by eapply nn_trans|]. by rewrite aggregates_app, H2, H4. Qed.
  Lemma off_refl n fx : aggregates fx = [] -> off n n fx.
  Proof. split; [by apply nn_refl|done]. Qed.

  Lemma import_off W n sb n' fx : import_and_emit E W n sb = Ok (n', fx) -> off n n' fx.
  Proof.
    unfold import_and_emit. intros H. apply rbind_Ok in H as (n1 & H1 & H). apply rbind_Ok in H as (? & _ & H).
    injection H as <- <-. split; [by apply on_block_nn in H1|]. rewrite aggregates_app, aggregates_events.
    by destruct (negb _).
  Qed.
  Lemma reagg_off W a sb a' fx : w_aggregator W = false -> run_reaggregate E C W a sb = Ok (a', fx) ->
    off (ac_node a) (ac_node a') fx.
  Proof.
    unfold run_reaggregate. intros -> H. destruct (duties_allowed C a).
    - apply rbind_Ok in H as (n & H1 & H). injection H as <- <-. apply batch_nn in H1. by split.
    - injection H as <- <-. by apply off_refl.
  Qed.
  Lemma pop_off W a sb a' q fx : w_aggregator W = false -> process_or_pend_block E C W a sb = Ok (a', q, fx) ->
    off (ac_node a) (ac_node a') fx.
  Proof.
    unfold process_or_pend_block. intros Hw H.
    destruct (_ <=? _); [apply rbind_Ok in H as (a1 & H1 & H); injection H as <- _ <-;
      apply discard_maps in H1 as (-> & _); by apply off_refl|].
    destruct (_ <? _); [apply rbind_Ok in H as (a1 & H1 & H); injection H as <- _ <-;
      apply discard_maps in H1 as (-> & _); by apply off_refl|].
    destruct (negb _).
    - apply rbind_Ok in H as (m & _ & H). apply rbind_Ok in H as ([a1 x] & Hx & H). cbn [fst snd] in H.
      apply walk_maps in Hx as (Hn & _). cbn [ac_node] in Hn.
      assert (nn (ac_node a) (ac_node a1)) as Hnn by (apply nn_refl; by rewrite Hn).
      destruct x; injection H as <- _ <-; by split.
    - destruct (import_and_emit E W (ac_node a) sb) as [[n' fx1]|e|] eqn:Him; [| |done].
      + apply rbind_Ok in H as ([a1 fx2] & Hre & H). apply import_off in Him. apply (reagg_off _ _ _ _ _ Hw) in Hre.
        cbn [fst snd ac_node with_node] in *. injection H as <- _ <-.
        unfold collect_pending_children. destruct (ac_pend a1 !! _); cbn [fst ac_node with_maps]; by eapply off_trans.
      + injection H as <- _ <-. by apply off_refl.
  Qed.
  Lemma loop_off fuel W a q a' fx : w_aggregator W = false -> block_loop E C fuel W a q = Ok (a', fx) ->
    off (ac_node a) (ac_node a') fx.
  Proof.
    intros Hw. revert a q fx. induction fuel as [|f IH]; intros a [|sb q] fx H; cbn [block_loop] in H; try done;
      try (injection H as <- <-; by apply off_refl).
    apply rbind_Ok in H as ([[a1 q1] fx1] & H1 & H). apply rbind_Ok in H as ([a2 fx2] & H2 & H).
    injection H as <- <-. cbn [fst snd] in *. apply (pop_off _ _ _ _ _ _ Hw) in H1. apply IH in H2. by eapply off_trans.
  Qed.
  Lemma votes_off W n data vs n' fx : publish_votes E W n data false vs = Ok (n', fx) -> off n n' fx.
  Proof.
    revert n fx. induction vs as [|v vs IH]; intros n fx H; cbn [publish_votes] in H.
    { injection H as <- <-. by apply off_refl. }
    destruct (w_sign W v data) as [sig|]; [|by eapply IH]. cbn [rbind] in H.
    apply rbind_Ok in H as ([n2 fx2] & H2 & H). injection H as <- <-. apply IH in H2. exact H2.
  Qed.
  Lemma interval_off W a slot i a' fx : w_aggregator W = false -> interval_duty E C W a slot i = Ok (a', fx) ->
    off (ac_node a) (ac_node a') fx.
  Proof.
    unfold interval_duty. intros Hw H. rewrite Hw in H. destruct i.
    - injection H as <- <-. by apply off_refl.
    - destruct (duties_allowed C a); [|injection H as <- <-; by apply off_refl].
      unfold produce_attestations in H. apply rbind_Ok in H as (data & _ & H).
      apply rbind_Ok in H as ([n1 fx1] & H1 & H). injection H as <- <-. by apply votes_off in H1.
    - cbn [andb] in H. injection H as <- <-. by apply off_refl.
    - injection H as <- <-. by apply off_refl.
    - apply rbind_Ok in H as (p & _ & H). destruct p as [v|]; [|injection H as <- <-; by apply off_refl].
      destruct (duties_allowed C a); [|injection H as <- <-; by apply off_refl].
      unfold propose_block in H. apply rbind_Ok in H as ([n1 h] & H1 & H). cbn [fst] in H.
      unfold get_proposal_head in H1. apply rbind_Ok in H1 as (n0 & H0 & H1). apply rbind_Ok in H1 as (n1' & H1 & Heq).
      injection Heq as -> _. apply on_tick_nn in H0. apply accept_nn in H1.
      assert (forall l, off (ac_node a) n1 (map fx_event l)) as Ho
        by (intros l; split; [by eapply nn_trans|apply aggregates_events]).
      destruct (w_build W n1 (slot + 1) v) as [sb|]; [|injection H as <- <-; apply Ho].
      destruct (import_and_emit E W n1 sb) as [[n2 fx2]|e|] eqn:Hpb; [|injection H as <- <-; apply Ho|done].
      injection H as <- <-. apply import_off in Hpb. eapply off_trans; [apply Ho|].
      cbn [ac_node with_node]. destruct Hpb as [Hp1 Hp2]. split; [done|]. by rewrite aggregates_app, Hp2.
  Qed.
  Lemma tick_off W a a' fx : w_aggregator W = false -> actor_on_tick E C W a = Ok (a', fx) ->
    off (ac_node a) (ac_node a') fx.
  Proof.
    unfold actor_on_tick. intros Hw H. destruct (_ && _); [injection H as <- <-; by apply off_refl|].
    apply rbind_Ok in H as (s & _ & H). destruct (s_validators s); [injection H as <- <-; by apply off_refl|].
    apply rbind_Ok in H as (a1 & Hu & H). apply rbind_Ok in H as (pr & _ & H). apply rbind_Ok in H as (n2 & Ht & H).
    apply rbind_Ok in H as ([a2 fx2] & Hd & H). apply rbind_Ok in H as (? & _ & H). apply rbind_Ok in H as (? & _ & H).
    injection H as <- <-. cbn [fst snd] in *. apply (interval_off _ _ _ _ _ _ Hw) in Hd.
    eapply off_trans; [|exact Hd]. split; [by apply on_tick_nn in Ht|apply aggregates_events].
  Qed.
  Lemma step_off W a m a' fx : w_aggregator W = false -> actor_step E C W a m = Ok (a', fx) ->
    nn (ac_node a) (ac_node a') /\ ac_session a' = ac_session a /\ sessions fx = [] /\
    forall sg, sg ∈ aggregates fx -> exists id participants keys,
      m = m_produced id (sg_data sg) (sg_proof sg) participants keys /\ ac_session a = Some id.
  Proof.
    intros Hw H. pose proof (step_facts _ _ _ _ _ _ _ H) as (_ & _ & Hses).
    assert (nn (ac_node a) (ac_node a') /\ forall sg, sg ∈ aggregates fx -> exists id participants keys,
      m = m_produced id (sg_data sg) (sg_proof sg) participants keys /\ ac_session a = Some id) as [H1 H2].
    2: { split_and!; try done; destruct Hses as [[? ?]|(slot & _ & _ & _ & Hx)]; try done; exfalso;
         destruct Hx as [[_ [Hx _]]|(a1 & _ & _ & _ & _ & [Hx _])]; congruence. }
    clear Hses.
    assert (forall n fx, off (ac_node a) n fx -> nn (ac_node a) n /\ forall sg, sg ∈ aggregates fx -> exists id participants keys,
      m = m_produced id (sg_data sg) (sg_proof sg) participants keys /\ ac_session a = Some id) as Hoff.
    { intros n l [Ho1 Ho2]. split; [done|]. rewrite Ho2. intros sg Hsg. by apply elem_of_nil in Hsg. }
    assert (forall a1, maybe_start_early_aggregation C W a1 = Ok (a1, [])) as Hearly.
    { intros a1. unfold maybe_start_early_aggregation. by rewrite Hw. }
    unfold actor_step in H. destruct m as [|sb g|sa|sg| |id data p parts keys].
    - apply Hoff. by apply tick_off in H.
    - apply rbind_Ok in H as ([a1 fx1] & H1 & H). injection H as <- <-. unfold actor_on_block in H1.
      apply rbind_Ok in H1 as ([a2 fx2] & H1 & H2). apply rbind_Ok in H2 as (d & _ & H2). injection H2 as <- <-.
      apply Hoff. apply (loop_off _ _ _ _ _ _ Hw) in H1. cbn [fst snd ac_node with_node] in *.
      apply (off_trans _ (ac_node a)); [apply off_refl; by destruct g|]. destruct H1 as [H1 H2]. split; [|done].
      eapply nn_trans; [exact H1|]. by apply nn_refl.
    - rewrite Hw in H. apply rbind_Ok in H as ([n1 fx1] & H1 & H). cbn [fst snd] in H.
      assert (n1 = ac_node a /\ aggregates fx1 = []) as [-> Hfx].
      { destruct (on_gossip_attestation E (ac_node a) sa false) as [n0|e|] eqn:Hg; [|by injection H1 as <- <-|done].
        apply vote_nn in Hg as ->. by injection H1 as <- <-. }
      destruct (_ =? _).
      + rewrite Hearly in H. cbn in H. injection H as <- <-. apply Hoff. apply off_refl. by rewrite app_nil_r.
      + injection H as <- <-. apply Hoff. by apply off_refl.
    - destruct (on_gossip_aggregated_attestation E (ac_node a) sg) as [n1|e|] eqn:Hg; [| |done].
      + injection H as <- <-. apply Hoff. split; [|done]. unfold on_gossip_aggregated_attestation in Hg.
        apply rbind_Ok in Hg as (? & _ & Hg). apply rbind_Ok in Hg as ([s|] & _ & Hg); [|done].
        destruct (validator_indices _); [done|]. destruct (att_keys _ _); [|done]. destruct (negb _); [done|].
        destruct (_ <=? _); [done|]. destruct (negb _); [done|]. apply expect_Ok in Hg. by apply insert_nn in Hg.
      + injection H as <- <-. apply Hoff. by apply off_refl.
    - rewrite Hearly in H. injection H as <- <-. apply Hoff. by apply off_refl.
    - case_bool_decide as Hs.
      + apply rbind_Ok in H as (n1 & H1 & H). injection H as <- <-. cbn [ac_node with_node]. split.
        * unfold apply_aggregated_group in H1. apply rbind_Ok in H1 as (n2 & H1 & H2). apply rbind_Ok in H2 as (g & Hg & H2).
          injection H2 as <-. apply insert_nn in H1. apply delete_no_new in Hg. eapply nn_trans; [exact H1|]. exact Hg.
        * intros sg Hsg. cbn in Hsg. apply elem_of_list_singleton in Hsg as ->. cbn. eauto.
      + injection H as <- <-. apply Hoff. by apply off_refl.
  Qed.

  Lemma out_effects_snoc l e o : out_effects (l ++ [(e, o)]) = out_effects l ++ match o with o_effects fx => fx | _ => [] end.
  Proof. unfold out_effects. rewrite map_app, concat_app. cbn. by rewrite app_nil_r. Qed.
  Lemma off_run s l s' : sys_run E C s l s' -> y_flag s = false -> never_asked true l ->
    y_flag s' = false /\ nn (ac_node (y_actor s)) (ac_node (y_actor s')) /\
    ac_session (y_actor s') = ac_session (y_actor s) /\ sessions (out_effects l) = [] /\
    forall sg, sg ∈ aggregates (out_effects l) -> exists id participants keys W o,
      (y_message W (m_produced id (sg_data sg) (sg_proof sg) participants keys), o) ∈ l /\
      ac_session (y_actor s) = Some id.
  Proof.
    intros H. induction H as [|l s1 e o s2 Hr IH Hs]; intros Hf Ha.
    - split_and!; try done; [by apply nn_refl|]. intros sg Hsg. by apply elem_of_nil in Hsg.
    - assert (never_asked true l) as Ha' by (intros b o' Hb; apply (Ha b o'), elem_of_app; by left).
      destruct (IH Hf Ha') as (I1 & I2 & I3 & I4 & I5).
      rewrite out_effects_snoc, sessions_app, I4, aggregates_app. cbn [app].
      destruct e as [|b|W m]; cbn [sys_step] in Hs.
      + injection Hs as <- <-. split_and!; try done. intros sg Hsg. rewrite app_nil_r in Hsg.
        destruct (I5 _ Hsg) as (id & ps & ks & W & o & H1 & H2). exists id, ps, ks, W, o. split; [|done].
        apply elem_of_app. by left.
      + destruct (post_spec (y_flag s1) b) as [(v & Hv & Hp)|(_ & c & _ & Hp)]; rewrite Hp in Hs; cbn in Hs; injection Hs as <- <-; cbn [y_flag y_actor].
        all: split_and!; try done.
        1: { destruct v; [|done]. exfalso. eapply Ha; [|exact Hv]. rewrite elem_of_app, elem_of_list_singleton. by right. }
        all: intros sg Hsg; rewrite app_nil_r in Hsg;
          destruct (I5 _ Hsg) as (id & ps & ks & W & o & H1 & H2); exists id, ps, ks, W, o; (split; [|done]);
          apply elem_of_app; by left.
      + apply rbind_Ok in Hs as ([a' fx] & Hst & Hs). injection Hs as <- <-. cbn [y_flag y_actor fst snd].
        apply step_off in Hst as (S1 & S2 & S3 & S4); [|done]. split_and!; [done|by eapply nn_trans|congruence|done|].
        intros sg Hsg. apply elem_of_app in Hsg as [Hsg|Hsg].
        * destruct (I5 _ Hsg) as (id & ps & ks & W' & o & H1 & H2). exists id, ps, ks, W', o. split; [|done].
          apply elem_of_app. by left.
        * destruct (S4 _ Hsg) as (id & ps & ks & -> & H2). eexists id, ps, ks, W, _. rewrite elem_of_app, elem_of_list_singleton.
          split; [by right|congruence].
  Qed.
End Off.
