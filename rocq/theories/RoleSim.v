(** The aggregator role does not change what the node does as a chain follower: a
    relational proof about two actors that see the same messages. *)
From Verif Require Export RoleProofs DutyAsk.

Definition sim {F A B} (R : A -> B -> Prop) (r : res F A) (r' : res F B) : Prop :=
  match r, r' with
  | Ok a, Ok b => R a b
  | Err e, Err e' => e = e'
  | Panic, _ | _, Panic => True
  | _, _ => False
  end.
Lemma sim_Panic_r {F A B} (R : A -> B -> Prop) (r : res F A) : sim R r Panic.
Proof. by destruct r. Qed.
Lemma sim_bind {F A B A' B'} (R : A -> B -> Prop) (R' : A' -> B' -> Prop) (r : res F A) r' k k' :
  sim R r r' -> (forall a b, R a b -> sim R' (k a) (k' b)) -> sim R' (rbind r k) (rbind r' k').
Proof. intros H1 H2. destruct r as [a|e|], r' as [b|e'|]; cbn in *; try done; try apply sim_Panic_r; by apply H2. Qed.
Lemma sim_same {F A A' B'} (R' : A' -> B' -> Prop) (r : res F A) k k' :
  (forall a, sim R' (k a) (k' a)) -> sim R' (rbind r k) (rbind r k').
Proof. intros H. destruct r; cbn; [apply H|done..]. Qed.
Lemma sim_expect {F F' A B} (R : A -> B -> Prop) (r : res F A) (r' : res F B) :
  sim R r r' -> sim R (expect r : res F' A) (expect r').
Proof. by destruct r, r'. Qed.
Lemma sim_weak {F A B} (R R' : A -> B -> Prop) (r : res F A) r' :
  (forall a b, R a b -> R' a b) -> sim R r r' -> sim R' r r'.
Proof. intros H. destruct r, r'; cbn; auto. Qed.

Lemma same_chain_mk d v nw k g g' : same_chain (mkNode d v nw k g) (mkNode d v nw k g').
Proof. done. Qed.
Lemma same_chain_inv n n' : same_chain n n' -> exists d v nw k g g', n = mkNode d v nw k g /\ n' = mkNode d v nw k g'.
Proof.
  intros [H1 H2 H3 H4]. destruct n as [d v nw k g], n' as [d' v' nw' k' g']. cbn in *. subst. eexists _, _, _, _, _, _. done.
Qed.
Lemma same_actor_inv a a' : same_actor a a' -> exists d v nw k g g' p q s x x',
  a = mkActor (mkNode d v nw k g) p q s x /\ a' = mkActor (mkNode d v nw k g') p q s x'.
Proof.
  intros [H1 H2 H3 H4]. destruct (same_chain_inv _ _ H1) as (d & v & nw & k & g & g' & E1 & E2).
  destruct a as [n p q s x], a' as [n' p' q' s' x']. cbn in *. subst. do 11 eexists. done.
Qed.
Lemma same_actor_mk n n' p q s x x' : same_chain n n' -> same_actor (mkActor n p q s x) (mkActor n' p q s x').
Proof. done. Qed.
Ltac open_node H := let d := fresh "d" in let v := fresh "v" in let nw := fresh "nw" in let k := fresh "k" in
  let g := fresh "g" in let g' := fresh "g'" in apply same_chain_inv in H as (d & v & nw & k & g & g' & -> & ->).

Lemma ordinary_app l l' : ordinary (l ++ l') = ordinary l ++ ordinary l'.
Proof. unfold ordinary. induction l as [|x l IH]; [done|]. cbn [app List.filter]. destruct x; cbn; by rewrite ?IH. Qed.

Section Sim.
  Context (E : Env) (C : Config).

  Lemma gossip_prune_sim f g g' : sim (fun _ _ => True) (gossip_prune f g) (gossip_prune f g').
  Proof. unfold gossip_prune, buf_prune. by repeat destruct (_ <? _). Qed.
  Lemma prune_pools_sim n n' o : same_chain n n' -> sim same_chain (prune_pools n o) (prune_pools n' o).
  Proof.
    intros H. open_node H. destruct o as [f|]; cbn [prune_pools]; [|done]. cbn [nd_gossip nd_new nd_known nd_db nd_votes].
    eapply sim_bind; [apply gossip_prune_sim|]. intros x y _. apply sim_same. intros b. apply sim_same. intros c. done.
  Qed.
  Lemma update_head_sim n n' : same_chain n n' -> sim same_chain (update_head n) (update_head n').
  Proof.
    intros H. open_node H. unfold update_head.
    change (ghost_head (mkNode d v nw k g')) with (ghost_head (mkNode d v nw k g)). apply sim_same. intros h.
    change (tab (mkNode d v nw k g')) with (tab (mkNode d v nw k g)). apply sim_same. intros fin.
    apply sim_expect. unfold update_checkpoints. cbn [nd_db]. apply sim_same. intros d1. by apply prune_pools_sim.
  Qed.
  Lemma accept_sim n n' : same_chain n n' -> sim same_chain (accept_new_attestations E n) (accept_new_attestations E n').
  Proof.
    intros H. open_node H. unfold accept_new_attestations. cbn [nd_new nd_known nd_db nd_votes nd_gossip].
    apply sim_same. intros p. by apply update_head_sim.
  Qed.
  Lemma safe_sim n n' : same_chain n n' -> sim same_chain (update_safe_target n) (update_safe_target n').
  Proof.
    intros H. open_node H. unfold update_safe_target. cbn [tab nd_db nd_votes].
    change (tab (mkNode d v nw k g')) with (tab (mkNode d v nw k g)). apply sim_same. intros [s|]; [|done].
    change (new_votes (mkNode d v nw k g')) with (new_votes (mkNode d v nw k g)).
    by destruct (safe_target _ _ _ _).
  Qed.
  Lemma with_db_sim n n' d : same_chain n n' -> same_chain (with_db n d) (with_db n' d).
  Proof. by intros [H1 H2 H3 H4]. Qed.
  Lemma tick_once_sim n n' hp last : same_chain n n' -> sim same_chain (tick_once E n hp last) (tick_once E n' hp last).
  Proof.
    intros H. unfold tick_once. rewrite <- (sc_db _ _ H).
    pose proof (with_db_sim _ _ (set_time (nd_db n) (db_time (nd_db n) + 1)) H) as H1.
    destruct (interval_of _); [destruct (_ && _); [by apply accept_sim|done]|done|done|by apply safe_sim|by apply accept_sim].
  Qed.
  Lemma tick_loop_sim j n n' hp : same_chain n n' -> sim same_chain (tick_loop E j n hp) (tick_loop E j n' hp).
  Proof.
    revert n n'. induction j as [|j IH]; intros n n' H; cbn [tick_loop]; [done|].
    eapply sim_bind; [by apply tick_once_sim|]. apply IH.
  Qed.
  Lemma on_tick_sim n n' ts hp : same_chain n n' -> sim same_chain (on_tick E n ts hp) (on_tick E n' ts hp).
  Proof.
    intros H. unfold on_tick. rewrite <- (sc_db _ _ H).
    destruct (_ <? _); cbn [nd_db with_db]; rewrite <- ?(sc_db _ _ H); apply tick_loop_sim; [by apply with_db_sim|done].
  Qed.
  Lemma on_block_sim n n' sb : same_chain n n' -> sim same_chain (on_block E n sb) (on_block E n' sb).
  Proof.
    intros H. open_node H. unfold on_block. cbn [nd_db nd_votes nd_new nd_known nd_gossip].
    apply sim_same. intros [post|]; [|done]. apply sim_same. intros d1. apply sim_same. intros d3.
    apply sim_expect. by apply update_head_sim.
  Qed.
  Lemma insert_sim n n' a p : same_chain n n' ->
    sim same_chain (insert_new_aggregated_payload E n a p) (insert_new_aggregated_payload E n' a p).
  Proof. intros H. open_node H. unfold insert_new_aggregated_payload. cbn [nd_new]. by apply sim_same. Qed.
  Lemma batch_sim n n' l : same_chain n n' -> sim same_chain (insert_new_batch E n l) (insert_new_batch E n' l).
  Proof.
    revert n n'. induction l as [|[a p] l IH]; intros n n' H; cbn [insert_new_batch]; [done|].
    eapply sim_bind; [by apply insert_sim|]. apply IH.
  Qed.
  Lemma vote_sim n n' sa f f' : same_chain n n' ->
    sim same_chain (on_gossip_attestation E n sa f) (on_gossip_attestation E n' sa f').
  Proof.
    intros H. open_node H. unfold on_gossip_attestation. cbn [nd_db].
    change (tab (mkNode d v nw k g')) with (tab (mkNode d v nw k g)).
    apply sim_same. intros []. apply sim_same. intros [s|]; [|done]. destruct (getN _ _); [|done].
    destruct (negb _); [done|]. destruct (_ <=? _); [done|]. destruct (negb _); [done|]. destruct (negb _); [done|].
    destruct f, f'; cbn [nd_gossip]; repeat destruct (gossip_insert _ _ _ _ _); done.
  Qed.
  Lemma aggregate_sim n n' sg : same_chain n n' ->
    sim same_chain (on_gossip_aggregated_attestation E n sg) (on_gossip_aggregated_attestation E n' sg).
  Proof.
    intros H. pose proof H as H0. open_node H. unfold on_gossip_aggregated_attestation. cbn [nd_db].
    change (tab (mkNode d v nw k g')) with (tab (mkNode d v nw k g)).
    apply sim_same. intros []. apply sim_same. intros [s|]; [|done]. destruct (validator_indices _); [done|].
    destruct (att_keys _ _); [|done]. destruct (negb _); [done|]. destruct (_ <=? _); [done|]. destruct (negb _); [done|].
    apply sim_expect. by apply insert_sim.
  Qed.
  Lemma proposal_sim n n' slot : same_chain n n' ->
    sim (fun x y => same_chain x.1 y.1) (get_proposal_head E n slot) (get_proposal_head E n' slot).
  Proof.
    intros H. unfold get_proposal_head. rewrite <- (sc_db _ _ H).
    eapply sim_bind; [by apply on_tick_sim|]. intros n1 n1' H1. eapply sim_bind; [by apply accept_sim|]. done.
  Qed.

  Definition same_out {A} (R : A -> A -> Prop) (x y : A * list Effect) : Prop := R x.1 y.1 /\ ordinary x.2 = ordinary y.2.

  Lemma import_sim W W' n n' sb : same_world W W' -> same_chain n n' ->
    sim (same_out same_chain) (import_and_emit E W n sb) (import_and_emit E W' n' sb).
  Proof.
    intros HW H. unfold import_and_emit. eapply sim_bind; [by apply on_block_sim|]. intros n1 n1' H1.
    unfold slot_of_root, tab, wall_slot. rewrite <- (sc_db _ _ H), <- (sc_db _ _ H1), <- (sw_after _ _ HW).
    apply sim_same. intros s. done.
  Qed.
  Lemma duties_same a a' : same_actor a a' -> duties_allowed C a = duties_allowed C a'.
  Proof. intros H. unfold duties_allowed. by rewrite (sm_syncing _ _ H). Qed.
  Lemma with_node_same a a' n n' : same_actor a a' -> same_chain n n' -> same_actor (with_node a n) (with_node a' n').
  Proof. by intros [H1 H2 H3 H4] H. Qed.
  Lemma ordinary_agg (f : bool) l :
    ordinary (if f then map (fun x : AttestationData * Proof_ => fx_publish_agg (mkSAgg x.1 x.2)) l else []) = [].
  Proof. destruct f; [|done]. by induction l. Qed.
  Lemma reagg_sim W W' a a' sb : same_world W W' -> same_actor a a' ->
    sim (same_out same_actor) (run_reaggregate E C W a sb) (run_reaggregate E C W' a' sb).
  Proof.
    intros HW H. unfold run_reaggregate. rewrite <- (duties_same _ _ H). destruct (duties_allowed C a); [|done].
    rewrite <- (sw_reagg _ _ HW _ _ sb (sm_node _ _ H)). eapply sim_bind; [apply batch_sim, (sm_node _ _ H)|].
    intros n n' Hn. split; cbn [fst snd]; [by apply with_node_same|]. by rewrite !ordinary_agg.
  Qed.

  Lemma maps_same a a' p q : same_actor a a' -> same_actor (with_maps a p q) (with_maps a' p q).
  Proof. by intros [H1 H2 H3 H4]. Qed.
  Lemma discard_sim fuel W W' a a' r : same_world W W' -> same_actor a a' ->
    sim same_actor (discard fuel W a r) (discard fuel W' a' r).
  Proof.
    intros HW. revert a a' r. induction fuel as [|f IH]; intros a a' r H; cbn [discard];
      rewrite <- (sm_pend _ _ H); (destruct (ac_pend a !! r) as [cs|]; [|done]); [done|].
    rewrite <- (sw_iter _ _ HW), <- (sm_par _ _ H).
    assert (forall l x x', sim same_actor x x' -> sim same_actor
      (fold_left (fun (r : res unit Actor) c =>
         let! a := r in discard f W (with_maps a (ac_pend a) (delete c (ac_par a))) c) l x)
      (fold_left (fun (r : res unit Actor) c =>
         let! a := r in discard f W' (with_maps a (ac_pend a) (delete c (ac_par a))) c) l x')) as Hf.
    { induction l as [|c l IHl]; intros x x' Hx; cbn [fold_left]; [done|]. apply IHl. eapply sim_bind; [exact Hx|].
      intros b b' Hb. apply IH. rewrite <- (sm_pend _ _ Hb), <- (sm_par _ _ Hb). by apply maps_same. }
    apply Hf. cbn. by apply maps_same.
  Qed.
  Lemma walk_sim fuel n n' a a' r : same_chain n n' -> same_actor a a' ->
    sim (fun x y => same_actor x.1 y.1 /\ x.2 = y.2) (walk_up E fuel n a r) (walk_up E fuel n' a' r).
  Proof.
    intros Hn. revert a a' r. induction fuel as [|f IH]; intros a a' r H; cbn [walk_up]; unfold tab; rewrite <- (sc_db _ _ Hn);
      (destruct (get_header _ _) as [h|]; [|done]); (destruct (has_state _ _); [by destruct (get_signed_block _ _ _)|]); [done|].
    apply IH. rewrite <- (sm_pend _ _ H), <- (sm_par _ _ H). by apply maps_same.
  Qed.
  Lemma children_sim W W' a a' r : same_world W W' -> same_actor a a' ->
    same_actor (collect_pending_children E W a r).1 (collect_pending_children E W' a' r).1 /\
    (collect_pending_children E W a r).2 = (collect_pending_children E W' a' r).2.
  Proof.
    intros HW H. unfold collect_pending_children, tab. rewrite <- (sm_pend _ _ H), <- (sm_par _ _ H), <- (sc_db _ _ (sm_node _ _ H)).
    destruct (ac_pend a !! r) as [cs|]; [|done]. rewrite <- (sw_iter _ _ HW). cbn [fst snd]. split; [|done]. by apply maps_same.
  Qed.
  Definition same_pop (x y : Actor * list SignedBlock * list Effect) : Prop :=
    same_actor x.1.1 y.1.1 /\ x.1.2 = y.1.2 /\ ordinary x.2 = ordinary y.2.
  Lemma pop_sim W W' a a' sb : same_world W W' -> same_actor a a' ->
    sim same_pop (process_or_pend_block E C W a sb) (process_or_pend_block E C W' a' sb).
  Proof.
    intros HW H. unfold process_or_pend_block, discard_pending_subtree, tab.
    pose proof (sm_node _ _ H) as Hn. rewrite <- (sc_db _ _ Hn), <- (sm_pend _ _ H), <- (sm_par _ _ H).
    destruct (_ <=? _); [eapply sim_bind; [by apply discard_sim|]; done|].
    destruct (_ <? _); [eapply sim_bind; [by apply discard_sim|]; done|].
    destruct (negb _).
    - apply sim_same. intros m. cbn [nd_db with_db with_tab db_tab]. eapply sim_bind.
      + apply walk_sim; [by apply with_db_sim|]. rewrite (sm_syncing _ _ H). apply same_actor_mk. by apply with_db_sim.
      + intros [b x] [b' x'] [Hb Hx]. cbn in Hb, Hx. subst x'. by destruct x.
    - pose proof (import_sim W W' _ _ sb HW Hn) as Him.
      destruct (import_and_emit E W (ac_node a) sb) as [[n1 fx]|e|], (import_and_emit E W' (ac_node a') sb) as [[n1' fx']|e'|];
        cbn in Him; try done; try apply sim_Panic_r.
      destruct Him as [Hn1 Hfx]. cbn [fst snd] in *. eapply sim_bind; [apply reagg_sim; [exact HW|by apply with_node_same]|].
      intros [b x] [b' x'] [Hb Hx]. cbn [fst snd] in *. destruct (children_sim W W' _ _ (block_root (e_header E) (e_body E) (sb_block sb)) HW Hb) as [H1 H2].
      split; [done|]. split; [done|]. cbn [snd]. by rewrite !ordinary_app, Hfx, Hx.
  Qed.
  Lemma loop_sim fuel W W' a a' q : same_world W W' -> same_actor a a' ->
    sim (same_out same_actor) (block_loop E C fuel W a q) (block_loop E C fuel W' a' q).
  Proof.
    intros HW. revert a a' q. induction fuel as [|f IH]; intros a a' [|sb q] H; cbn [block_loop]; try done.
    eapply sim_bind; [by apply pop_sim|]. intros [[b x] fx] [[b' x'] fx'] (H1 & H2 & H3). cbn [fst snd] in *. subst x'.
    eapply sim_bind; [by apply IH|]. intros [c y] [c' y'] [Hc Hy]. split; [done|]. cbn [fst snd] in *. by rewrite !ordinary_app, H3, Hy.
  Qed.
  Lemma actor_block_sim W W' a a' sb : same_world W W' -> same_actor a a' ->
    sim (same_out same_actor) (actor_on_block E C W a sb) (actor_on_block E C W' a' sb).
  Proof.
    intros HW H. unfold actor_on_block, tab. rewrite <- (sc_db _ _ (sm_node _ _ H)). eapply sim_bind; [by apply loop_sim|].
    intros [b x] [b' x'] [Hb Hx]. cbn [fst snd] in *. rewrite <- (sc_db _ _ (sm_node _ _ Hb)). apply sim_same. intros d.
    split; [|done]. apply with_node_same; [done|]. apply with_db_sim, (sm_node _ _ Hb).
  Qed.

  (** Sessions are invisible. *)
  Definition calm (a : Actor) (r : res unit (Actor * list Effect)) : Prop :=
    match r with Ok x => same_actor a x.1 /\ ordinary x.2 = [] | Err _ => False | Panic => True end.
  Lemma same_refl a : same_actor a a. Proof. done. Qed.
  Lemma session_calm W a slot : calm a (start_aggregation_session C W a slot).
  Proof.
    unfold start_aggregation_session, get_our_proposer, head_state. destruct (read_state _ _) as [[s|]|e|]; cbn; try done.
    by destruct (w_jobs _ _ _ _).
  Qed.
  Lemma early_calm W a : calm a (maybe_start_early_aggregation C W a).
  Proof.
    unfold maybe_start_early_aggregation. destruct (negb _); [done|]. destruct (_ <? _); [done|]. destruct (_ || _); [done|].
    case_bool_decide; [done|]. unfold head_state. destruct (read_state _ _) as [[s|]|e|]; cbn [expect rbind]; try done.
    destruct (_ || _); [done|]. apply session_calm.
  Qed.
  Lemma same_sym a a' : same_actor a a' -> same_actor a' a.
  Proof. by intros [[H1 H2 H3 H4] H5 H6 H7]. Qed.
  Lemma same_trans a b c : same_actor a b -> same_actor b c -> same_actor a c.
  Proof. intros [[A1 A2 A3 A4] A5 A6 A7] [[B1 B2 B3 B4] B5 B6 B7]. split; [split|..]; congruence. Qed.
  Lemma calm_sim a a' r r' : same_actor a a' -> calm a r -> calm a' r' -> sim (same_out same_actor) r r'.
  Proof.
    intros H H1 H2. destruct r as [x|e|], r' as [y|e'|]; cbn in *; try done. destruct H1 as [H1 H1'], H2 as [H2 H2'].
    split; [|congruence]. eapply same_trans; [apply same_sym; exact H1|]. eapply same_trans; [exact H|exact H2].
  Qed.

  Lemma chain_sym n n' : same_chain n n' -> same_chain n' n.
  Proof. by intros [H1 H2 H3 H4]. Qed.
  Lemma chain_trans n n1 n2 : same_chain n n1 -> same_chain n1 n2 -> same_chain n n2.
  Proof. intros [A1 A2 A3 A4] [B1 B2 B3 B4]. split; congruence. Qed.
  Lemma vote_same n sa f n' : on_gossip_attestation E n sa f = Ok n' -> same_chain n n'.
  Proof.
    unfold on_gossip_attestation. intros H. apply rbind_Ok in H as (? & _ & H). apply rbind_Ok in H as ([s|] & _ & H); [|done].
    destruct (getN _ _); [|done]. destruct (negb _); [done|]. destruct (_ <=? _); [done|]. destruct (negb _); [done|].
    destruct (negb _); [done|]. destruct f; [|by injection H as <-]. apply rbind_Ok in H as (g & _ & H). by injection H as <-.
  Qed.
  Lemma votes_sim W W' n n' data f f' vs : same_world W W' -> same_chain n n' ->
    sim (same_out same_chain) (publish_votes E W n data f vs) (publish_votes E W' n' data f' vs).
  Proof.
    intros HW. revert n n'. induction vs as [|v vs IH]; intros n n' H; cbn [publish_votes]; [done|].
    rewrite <- (sw_sign _ _ HW). destruct (w_sign W v data) as [sig|]; [|by apply IH].
    assert (forall n f, match (if f : bool
                      then match on_gossip_attestation E n (mkSA v data sig) true with
                           | Ok n1 => Ok n1 | Err _ => Ok n | Panic => Panic end
                      else Ok n : res unit Node) with Ok n1 => same_chain n n1 | Err _ => False | Panic => True end) as Hd.
    { intros m [|]; [|done]. destruct (on_gossip_attestation E m _ true) as [n1|e|] eqn:Hv; [|done|done].
      by apply vote_same in Hv. }
    eapply (sim_bind same_chain).
    - pose proof (Hd n f) as H1. pose proof (Hd n' f') as H2. revert H1 H2.
      generalize (if f then match on_gossip_attestation E n (mkSA v data sig) true with
                           | Ok n1 => Ok n1 | Err _ => Ok n | Panic => Panic end
                      else Ok n : res unit Node) as r.
      generalize (if f' then match on_gossip_attestation E n' (mkSA v data sig) true with
                           | Ok n1 => Ok n1 | Err _ => Ok n' | Panic => Panic end
                      else Ok n' : res unit Node) as r'.
      intros r' r H1 H2. destruct r as [m|e|], r' as [m'|e'|]; cbn in *; try done.
      eapply chain_trans; [apply chain_sym; exact H1|]. eapply chain_trans; [exact H|exact H2].
    - intros n1 n1' H1. eapply sim_bind; [by apply IH|]. intros [m x] [m' x'] [Hm Hx]. split; [done|].
      cbn [fst snd] in *. change (ordinary (fx_publish_att (mkSA v data sig) :: x)) with (fx_publish_att (mkSA v data sig) :: ordinary x).
      rewrite Hx. done.
  Qed.

  Lemma proposer_same a a' slot : same_actor a a' -> get_our_proposer C a slot = get_our_proposer C a' slot.
  Proof. intros H. unfold get_our_proposer, head_state, tab. by rewrite (sc_db _ _ (sm_node _ _ H)). Qed.
  Lemma propose_sim W W' a a' slot v : same_world W W' -> same_actor a a' ->
    sim (same_out same_actor) (propose_block E W a slot v) (propose_block E W' a' slot v).
  Proof.
    intros HW H. unfold propose_block. pose proof (sm_node _ _ H) as Hn.
    eapply sim_bind; [by apply proposal_sim|]. intros [n1 h] [n1' h'] Hn1. cbn [fst] in *.
    rewrite <- (sc_db _ _ Hn), <- (sc_db _ _ Hn1), <- (sw_build _ _ HW _ _ slot v Hn1).
    destruct (w_build W n1 slot v) as [sb|]; [|by split; [apply with_node_same|]].
    pose proof (import_sim W W' _ _ sb HW Hn1) as Him.
    destruct (import_and_emit E W n1 sb) as [[n2 fx]|e|], (import_and_emit E W' n1' sb) as [[n2' fx']|e'|];
      cbn in Him; try done; try apply sim_Panic_r.
    - destruct Him as [Hn2 Hfx]. cbn [fst snd] in *. split; [by apply with_node_same|]. cbn [snd].
      by rewrite !ordinary_app, Hfx.
    - by split; [apply with_node_same|].
  Qed.
  Lemma interval_sim W W' a a' slot i : same_world W W' -> same_actor a a' ->
    sim (same_out same_actor) (interval_duty E C W a slot i) (interval_duty E C W' a' slot i).
  Proof.
    intros HW H. destruct i; cbn [interval_duty]; try done.
    - rewrite <- (duties_same _ _ H). destruct (duties_allowed C a); [|done]. unfold produce_attestations.
      rewrite <- (sc_db _ _ (sm_node _ _ H)). apply sim_same. intros data.
      eapply sim_bind; [apply votes_sim; [exact HW|apply (sm_node _ _ H)]|]. intros [n x] [n' x'] [Hn Hx]. split; [|done].
      by apply with_node_same.
    - eapply calm_sim; [exact H|..]; (destruct (_ && _); [apply session_calm|done]).
    - rewrite <- (proposer_same _ _ _ H). apply sim_same. intros [v|]; [|done]. rewrite <- (duties_same _ _ H).
      destruct (duties_allowed C a); [|done]. by apply propose_sim.
  Qed.
  Lemma status_sim a a' slot : same_actor a a' -> sim same_actor (update_sync_status a slot) (update_sync_status a' slot).
  Proof.
    intros H. unfold update_sync_status, slot_of_root, tab. rewrite <- (sc_db _ _ (sm_node _ _ H)). apply sim_same.
    intros hs. rewrite <- (sm_pend _ _ H), <- (sm_par _ _ H), <- (sm_syncing _ _ H). cbn. apply same_actor_mk, (sm_node _ _ H).
  Qed.
  Lemma tick_sim W W' a a' : same_world W W' -> same_actor a a' ->
    sim (same_out same_actor) (actor_on_tick E C W a) (actor_on_tick E C W' a').
  Proof.
    intros HW H. pose proof (sm_node _ _ H) as Hn. unfold actor_on_tick, head_state, tab.
    rewrite <- (sc_db _ _ Hn), <- (sw_now _ _ HW). destruct (_ && _); [done|].
    apply sim_same. intros s. destruct (s_validators s); [done|].
    eapply sim_bind; [by apply status_sim|]. intros a1 a1' Ha1. rewrite <- (proposer_same _ _ _ Ha1). apply sim_same. intros pr.
    eapply sim_bind; [by apply on_tick_sim|]. intros n2 n2' Hn2. rewrite <- (sc_db _ _ Hn2).
    eapply sim_bind; [apply interval_sim; [exact HW|by apply with_node_same]|]. intros [b x] [b' x'] [Hb Hx]. cbn [fst snd] in *.
    unfold slot_of_root, tab. rewrite <- (sc_db _ _ (sm_node _ _ Hb)). apply sim_same. intros _. apply sim_same. intros _.
    split; [done|]. cbn [snd]. by rewrite !ordinary_app, Hx.
  Qed.

  Lemma step_sim W W' a a' m : same_world W W' -> same_actor a a' -> ~ is_produced m ->
    sim (same_out same_actor) (actor_step E C W a m) (actor_step E C W' a' m).
  Proof.
    intros HW H Hm. pose proof (sm_node _ _ H) as Hn. destruct m as [|sb g|sa|sg| |id data p parts keys]; cbn [actor_step].
    - by apply tick_sim.
    - eapply sim_bind; [by apply actor_block_sim|]. intros [b x] [b' x'] [Hb Hx]. split; [done|]. cbn [fst snd] in *.
      by rewrite !ordinary_app, Hx.
    - apply (sim_bind (fun x y => same_chain x.1 y.1 /\ x.2 = y.2)).
      + pose proof (vote_sim _ _ sa (w_aggregator W) (w_aggregator W') Hn) as Hv.
        destruct (on_gossip_attestation E (ac_node a) sa _), (on_gossip_attestation E (ac_node a') sa _); cbn in *; done.
      + intros [n x] [n' x'] [Hn1 Hx]. cbn [fst snd] in *. subst x'. rewrite <- (sc_db _ _ Hn1).
        destruct (_ =? _); [|split; [by apply with_node_same|done]].
        eapply sim_bind; [eapply calm_sim; [|apply early_calm..]; by apply with_node_same|].
        intros [b y] [b' y'] [Hb Hy]. split; [done|]. cbn [fst snd] in *. by rewrite !ordinary_app, Hy.
    - pose proof (aggregate_sim _ _ sg Hn) as Hv.
      destruct (on_gossip_aggregated_attestation E (ac_node a) sg), (on_gossip_aggregated_attestation E (ac_node a') sg);
        cbn in Hv; try done; try apply sim_Panic_r. split; [by apply with_node_same|done].
    - eapply calm_sim; [exact H|apply early_calm..].
    - by destruct Hm.
  Qed.

  (** *** Histories *)
  Lemma messages_snoc l e o : messages (l ++ [(e, o)]) = messages l ++ match e with y_message W m => [(W, m)] | _ => [] end.
  Proof. unfold messages. rewrite omap_app. cbn. by destruct e. Qed.
  Lemma no_message s l t : sys_run E C s l t -> messages l = [] -> y_actor t = y_actor s /\ out_effects l = [].
  Proof.
    intros H. induction H as [|l s1 e o s2 Hr IH Hs]; [done|]. rewrite messages_snoc, out_effects_snoc. intros Hm.
    apply app_nil in Hm as [Hm He]. destruct (IH Hm) as [I1 I2]. rewrite I2. destruct e as [|b|W m]; [..|done]; cbn [sys_step] in Hs.
    - by injection Hs as <- <-.
    - injection Hs as <- <-. done.
  Qed.
  Lemma last_message s l t ms W m : sys_run E C s l t -> messages l = ms ++ [(W, m)] ->
    exists l1 t1 fx, sys_run E C s l1 t1 /\ messages l1 = ms /\
      actor_step E C (with_flag W (y_flag t1)) (y_actor t1) m = Ok (y_actor t, fx) /\
      out_effects l = out_effects l1 ++ fx.
  Proof.
    intros H. induction H as [|l s1 e o s2 Hr IH Hs]; [by destruct ms|]. rewrite messages_snoc, out_effects_snoc.
    destruct e as [|b|W' m']; cbn [sys_step] in Hs.
    - rewrite app_nil_r. intros Hm. injection Hs as <- <-. rewrite app_nil_r. by apply IH.
    - rewrite app_nil_r. intros Hm. injection Hs as <- <-. rewrite app_nil_r. by apply IH.
    - intros Hm. apply app_inj_tail in Hm as [Hm [= -> ->]]. apply rbind_Ok in Hs as ([a fx] & H1 & Hs).
      injection Hs as <- <-. exists l, s1, fx. done.
  Qed.
  Lemma with_flag_same W W' f f' : same_world W W' -> same_world (with_flag W f) (with_flag W' f').
  Proof. by intros [H1 H2 H3 H4 H5 H6]. Qed.
  Lemma chain_pf s s' l l' t t' :
    sys_run E C s l t -> sys_run E C s' l' t' -> same_actor (y_actor s) (y_actor s') ->
    Forall2 (fun x y => same_world x.1 y.1 /\ x.2 = y.2 /\ ~ is_produced x.2) (messages l) (messages l') ->
    same_actor (y_actor t) (y_actor t') /\ ordinary (out_effects l) = ordinary (out_effects l').
  Proof.
    intros H1 H2 Hs Hf. remember (messages l) as ms eqn:Hms. remember (messages l') as ms' eqn:Hms'.
    revert l l' t t' ms' H1 H2 Hf Hms Hms'. induction ms as [|[W m] ms IH] using rev_ind; intros l l' t t' ms' H1 H2 Hf Hms Hms'.
    - apply Forall2_nil_inv_l in Hf as ->. destruct (no_message _ _ _ H1 (eq_sym Hms)) as [-> ->].
      destruct (no_message _ _ _ H2 (eq_sym Hms')) as [-> ->]. done.
    - apply Forall2_app_inv_l in Hf as (ms1 & ms2 & Hf & Hlast & ->).
      apply Forall2_cons_inv_l in Hlast as ([W' m'] & ms3 & (Hw & Hmm & Hp) & Hnil & ->). apply Forall2_nil_inv_l in Hnil as ->.
      cbn [fst snd] in *. subst m'.
      destruct (last_message _ _ _ _ _ _ H1 (eq_sym Hms)) as (l1 & t1 & fx & R1 & M1 & S1 & O1).
      destruct (last_message _ _ _ _ _ _ H2 (eq_sym Hms')) as (l1' & t1' & fx' & R1' & M1' & S1' & O1').
      destruct (IH _ _ _ _ _ R1 R1' Hf (eq_sym M1) (eq_sym M1')) as [Ha Ho].
      pose proof (step_sim _ _ _ _ m (with_flag_same _ _ (y_flag t1) (y_flag t1') Hw) Ha Hp) as Hsim.
      rewrite S1, S1' in Hsim. cbn in Hsim. destruct Hsim as [Hsa Hso]. cbn [fst snd] in *. split; [done|].
      by rewrite O1, O1', !ordinary_app, Ho, Hso.
  Qed.
End Sim.

(** ** With the role *)
Section On.
  Context (E : Env) (C : Config) (gt : N) (vals : list Validator).
  Context (Hgood : good_hash (e_header E)) (Hvals : lenN vals <= VALIDATOR_REGISTRY_LIMIT).
  Lemma sys_reach s l t : reachable E gt vals (ac_node (y_actor s)) -> sys_run E C s l t ->
    reachable E gt vals (ac_node (y_actor t)).
  Proof.
    intros Hr H. induction H as [|l s1 e o s2 Hrun IH Hs]; [done|]. destruct e as [|b|W m]; cbn [sys_step] in Hs.
    - by injection Hs as <- <-.
    - by injection Hs as <- <-.
    - apply rbind_Ok in Hs as ([a fx] & H1 & Hs). injection Hs as <- <-. cbn. apply step_goes in H1. by eapply reach_goes.
  Qed.
  Lemma on_pf cli n l s W s' fx :
    vals <> [] -> reachable E gt vals n -> sys_run E C (boot cli n) l s -> role_after cli l true ->
    sys_step E C s (y_message W m_tick) = Ok (s', o_effects fx) ->
    let i := wall_interval W (y_actor s) in
    db_time (nd_db (ac_node (y_actor s))) < i -> i mod 5 = 2 -> ac_session (y_actor s) <> Some (i / 5) ->
    exists k, if w_jobs W (ac_node (y_actor s')) (i / 5) k then fx_session (i / 5) k ∈ fx else sessions fx = [].
  Proof using Hgood Hvals.
    intros Hne Hr Hrun Hrole Hs i H1 H2 H3. cbn [sys_step] in Hs. apply rbind_Ok in Hs as ([a fx'] & Hst & Hs).
    injection Hs as <- <-. cbn [y_actor fst].
    rewrite (role_flag _ _ _ _ _ _ _ Hrun Hrole) in Hst.
    assert (reachable E gt vals (ac_node (y_actor s))) as Hr' by (eapply sys_reach; [|exact Hrun]; exact Hr).
    exact (session_held E C gt vals Hgood Hvals (with_flag W true) (y_actor s) a fx' Hr' Hne Hst H1 H2 eq_refl H3).
  Qed.
End On.
