(** Proofs for C85. *)
From Verif Require Export CatchupSpec ActorFetch ServeProofs.

Section Catchup.
  Context (E : Env) (C : Config) (gt : N) (vals : list Validator).
  Context (Hgood : good_hash (e_header E)) (Hvals : lenN vals <= VALIDATOR_REGISTRY_LIMIT)
    (Hacyc : acyclic_hash (e_header E)).
  Notation hb := (e_body E).
  Notation root_ := (block_root (e_header E) (e_body E)).
  Notation rt sb := (block_root (e_header E) (e_body E) (sb_block sb)).
  Notation reach := (reachable E gt vals).

  Lemma run_join a tr a1 tr' a2 : actor_run E C a tr a1 -> actor_run E C a1 tr' a2 -> actor_run E C a (tr ++ tr') a2.
  Proof using.
    intros H1. induction 1 as [|tr' b1 W m b2 fx H IH HW Hs]; [by rewrite app_nil_r|]. rewrite app_assoc. by econstructor.
  Qed.
  Lemma reach_more a tr a1 : actor_reachable E C gt vals a -> actor_run E C a tr a1 -> actor_reachable E C gt vals a1.
  Proof using. intros (n0 & tr0 & Hn & H0) H. exists n0, (tr0 ++ tr). split; [done|]. by eapply run_join. Qed.

  Lemma prune_ok n : reach n -> exists d, prune_old_data (nd_db n) = Ok d /\
    t_headers (db_tab d) = t_headers (tab n) /\ (forall r, has_state (db_tab d) r = has_state (tab n) r) /\
    db_fin d = db_fin (nd_db n) /\ db_time d = db_time (nd_db n) /\ db_gt d = db_gt (nd_db n).
  Proof using Hgood Hvals.
    intros Hr. destruct (reachable_inv E gt vals Hgood Hvals _ Hr) as (A & As & w & [Hi _] & _).
    destruct (di_head _ _ _ _ _ _ _ Hi) as [s Hs]. destruct (w_header _ _ _ _ _ _ _ _ _ Hi Hs) as (Hh & _).
    unfold prune_old_data, get_header. rewrite Hh. eexists. split; [reflexivity|].
    unfold prune_old_block_proofs. destruct (_ || _); done.
  Qed.

  (** A block whose parent the node has never seen is stored and its parent asked for. *)
  Lemma pend_exact W g a sb : reach (ac_node a) -> pending_ok a ->
    cp_slot (db_fin (nd_db (ac_node a))) < b_slot (sb_block sb) ->
    5 * b_slot (sb_block sb) <= db_time (nd_db (ac_node a)) + 1 ->
    t_headers (tab (ac_node a)) !! b_parent (sb_block sb) = None ->
    t_headers (tab (ac_node a)) !! rt sb = None ->
    exists a' fx, actor_step E C W a (m_block sb g) = Ok (a', fx) /\ fetched fx = [b_parent (sb_block sb)] /\
      t_headers (tab (ac_node a')) = <[rt sb := header_of hb (sb_block sb)]> (t_headers (tab (ac_node a))) /\
      (forall r, has_state (tab (ac_node a')) r = has_state (tab (ac_node a)) r) /\
      db_fin (nd_db (ac_node a')) = db_fin (nd_db (ac_node a)) /\
      db_time (nd_db (ac_node a')) = db_time (nd_db (ac_node a)) /\
      db_gt (nd_db (ac_node a')) = db_gt (nd_db (ac_node a)) /\
      ac_pend a' = <[b_parent (sb_block sb) := {[rt sb]} ∪ default ∅ (ac_pend a !! b_parent (sb_block sb))]> (ac_pend a).
  Proof using Hgood Hvals Hacyc.
    intros Hr HP Hf Ht Hno Hnew. pose proof Hacyc as (rank & Hrank).
    assert (has_state (tab (ac_node a)) (b_parent (sb_block sb)) = false) as Hst.
    { destruct (has_state _ _) eqn:Hs; [|done]. apply (reach_header E gt vals Hgood Hvals _ _ Hr) in Hs as [h Hs].
      by rewrite Hno in Hs. }
    assert (ac_par a !! b_parent (sb_block sb) = None) as Hpar.
    { destruct (ac_par a !! _) eqn:Hs; [|done].
      destruct (proj1 (po_same _ HP (b_parent (sb_block sb)))) as (q & cs & H1 & H2); [by eexists|].
      destruct (po_parent _ HP _ _ _ H1 H2) as (h & Hh & _). congruence. }
    assert (b_parent (sb_block sb) <> rt sb) as Hne.
    { pose proof (Hrank (header_of hb (sb_block sb))) as H. intros He. unfold block_root in He.
      cbn [header_of h_parent] in H. rewrite He in H at 1. lia. }
    cbn [actor_step]. unfold actor_on_block.
    replace (size (t_headers (tab (ac_node a))) + 4)%nat with (S (size (t_headers (tab (ac_node a))) + 3)) by lia.
    cbn [block_loop]. unfold process_or_pend_block at 1.
    rewrite (proj2 (N.leb_gt _ _) Hf).
    assert ((db_time (nd_db (ac_node a)) + GOSSIP_DISPARITY_INTERVALS <?
      saturating_mul (b_slot (sb_block sb)) INTERVALS_PER_SLOT) = false) as ->.
    { apply N.ltb_ge. unfold saturating_mul, INTERVALS_PER_SLOT, GOSSIP_DISPARITY_INTERVALS. lia. }
    rewrite Hst. cbn [negb].
    assert (chase (size (ac_par a)) (ac_par a) (b_parent (sb_block sb)) = Ok (b_parent (sb_block sb))) as ->
      by (destruct (size (ac_par a)); cbn [chase]; by rewrite Hpar).
    cbn [rbind]. set (n' := with_db (ac_node a) _). set (a1 := mkActor n' _ _ _ _).
    assert (tab n' = write_signed_block hb (tab (ac_node a)) (rt sb) sb) as Htab by done.
    assert (walk_up E (size (t_headers (tab n'))) n' a1 (b_parent (sb_block sb)) = Ok (a1, inr (b_parent (sb_block sb)))) as ->.
    { assert (get_header (tab n') (b_parent (sb_block sb)) = None) as Hg.
      { unfold get_header. rewrite Htab, written_headers, lookup_insert_ne by done. done. }
      destruct (size (t_headers (tab n'))); cbn [walk_up]; by rewrite Hg. }
    cbn [rbind fst snd app].
    assert (forall k, block_loop E C k W a1 [] = Ok (a1, [])) as Hl by (intros []; done). rewrite Hl. cbn [rbind fst snd app].
    assert (reach n') as Hrn.
    { apply (reach_goes E gt vals (ac_node a) [] n' Hr).
      apply (goes_one E (ac_node a) (ev_pending sb)); [|done]. cbn. unfold pends.
      rewrite (proj2 (N.ltb_lt _ _)) by done. rewrite (proj2 (N.leb_le _ _)).
      - rewrite Hst. done.
      - unfold saturating_mul, INTERVALS_PER_SLOT, GOSSIP_DISPARITY_INTERVALS. lia. }
    destruct (prune_ok n' Hrn) as (d & Hd & D1 & D2 & D3 & D4 & D5). change (ac_node a1) with n'. rewrite Hd. cbn [rbind fst snd].
    eexists _, _. split; [reflexivity|]. split.
    { rewrite fetched_app. by destruct g. }
    unfold tab in *. cbn [ac_node with_node with_db nd_db ac_pend]. split_and!; try done.
    - rewrite D1, Htab. apply written_headers.
    - intros r. rewrite D2, Htab. apply written_state.
  Qed.

  (** Only the blocks delivered and those waiting can be imported. *)
  Definition waits_in (R : H256 -> Prop) (a : Actor) : Prop :=
    forall p cs c, ac_pend a !! p = Some cs -> c ∈ cs -> R c.
  Lemma imported_app l l' : imported (l ++ l') = imported l ++ imported l'.
  Proof using. apply omap_app. Qed.
  Lemma import_only W n sb n' fx r : import_and_emit E W n sb = Ok (n', fx) -> r ∈ imported fx -> r = rt sb.
  Proof using.
    unfold import_and_emit. intros H Hr. apply rbind_Ok in H as (n1 & _ & H). apply rbind_Ok in H as (? & _ & H).
    injection H as _ <-. rewrite imported_app in Hr. apply elem_of_app in Hr as [Hr|Hr].
    - destruct (negb _); [|by apply elem_of_nil in Hr]. by apply elem_of_list_singleton in Hr.
    - exfalso. rewrite imported_events, events_diff in Hr. revert Hr. unfold diff_and_emit.
      repeat (case_bool_decide || destruct (_ =? _) || destruct (get_header _ _) || destruct (_ <=? _)); cbn;
        intros Hr; by apply elem_of_nil in Hr.
  Qed.
  Lemma reagg_only W a sb a' fx : run_reaggregate E C W a sb = Ok (a', fx) -> imported fx = [].
  Proof using.
    unfold run_reaggregate. destruct (duties_allowed C a); intros H.
    - apply rbind_Ok in H as (n & _ & H). injection H as _ <-. destruct (w_aggregator W); [|done].
      induction (w_reagg _ _ _); [done|]. exact IHl.
    - injection H as _ <-. done.
  Qed.
  Lemma pop_only (R : H256 -> Prop) W a sb a' q fx : reach (ac_node a) -> pending_ok a -> world_ok W ->
    has_state (tab (ac_node a)) (b_parent (sb_block sb)) = true ->
    process_or_pend_block E C W a sb = Ok (a', q, fx) -> R (rt sb) -> waits_in R a ->
    (forall r, r ∈ imported fx -> R r) /\ waits_in R a' /\ (forall x, x ∈ q -> R (rt x)).
  Proof using Hgood Hvals Hacyc.
    intros Hr HP HW Hs H HR Hw. pose proof Hacyc as (rank & Hrank).
    pose proof (reach_ranked E gt vals Hgood Hvals _ _ Hrank Hr) as Hrk.
    destruct (pop_goes E C _ _ _ _ _ _ H) as (G & _). pose proof (reach_goes E gt vals _ _ _ Hr G) as Hr'.
    unfold process_or_pend_block in H. rewrite Hs in H. cbn [negb] in H.
    assert (forall a1, discard_pending_subtree W a (rt sb) = Ok a1 -> waits_in R a1) as Hdis.
    { intros a1 Hd. destruct (discard_ok rank W a (rt sb) HW HP Hrk) as (a2 & Hd2 & _ & _ & Hk & _).
      rewrite Hd in Hd2. injection Hd2 as <-. intros p cs c H1 H2. apply Hk in H1 as (H1 & _). by eapply Hw. }
    destruct (_ <=? _); [apply rbind_Ok in H as (a1 & Hd & H); injection H as <- <- <-|].
    { split_and!; [|by apply Hdis|]; intros r H; by apply elem_of_nil in H. }
    destruct (_ <? _); [apply rbind_Ok in H as (a1 & Hd & H); injection H as <- <- <-|].
    { split_and!; [|by apply Hdis|]; intros r H; by apply elem_of_nil in H. }
    destruct (import_and_emit E W (ac_node a) sb) as [[n' fx1]|e|] eqn:Him; [| |done].
    - apply rbind_Ok in H as ([a1 fx2] & Hre & H). cbn [fst snd] in H.
      pose proof (reagg_only _ _ _ _ _ Hre) as Hi2.
      destruct (reagg_goes E C _ _ _ _ _ Hre) as (_ & _ & Hmo).
      assert (ac_pend a1 = ac_pend a) as Hp1.
      { unfold run_reaggregate in Hre. destruct (duties_allowed C _) in Hre.
        - apply rbind_Ok in Hre as (n & _ & Hre). by injection Hre as <- _.
        - by injection Hre as <- _. }
      assert (forall r, r ∈ imported (fx1 ++ fx2) -> R r) as Hi.
      { intros r Hin. rewrite imported_app, Hi2, app_nil_r in Hin. by rewrite (import_only _ _ _ _ _ _ Him Hin). }
      unfold collect_pending_children in H. rewrite Hp1 in H.
      destruct (ac_pend a !! rt sb) as [cs|] eqn:Hcs; injection H as <- <- <-.
      + split_and!; [done| |].
        * intros p cs' c H1 H2. cbn [ac_pend with_maps] in H1. apply lookup_delete_Some in H1 as [_ H1]. by eapply Hw.
        * intros x Hx. apply elem_of_list_omap in Hx as (c & Hc & Hx).
          cbn [ac_node with_maps] in Hr'. rewrite (served_root E gt vals Hgood Hvals _ _ _ Hr' Hx).
          rewrite (HW cs) in Hc. apply elem_of_elements in Hc. by eapply Hw.
      + split_and!; [done| |].
        * intros p cs' c H1 H2. rewrite Hp1 in H1. by eapply Hw.
        * intros x Hx. by apply elem_of_nil in Hx.
    - injection H as <- <- <-. split_and!; [|done|]; intros r H; by apply elem_of_nil in H.
  Qed.
  Lemma loop_only (R : H256 -> Prop) fuel W a q a' fx : reach (ac_node a) -> pending_ok a -> world_ok W ->
    (forall x, x ∈ q -> has_state (tab (ac_node a)) (b_parent (sb_block x)) = true /\ R (rt x)) -> waits_in R a ->
    block_loop E C fuel W a q = Ok (a', fx) -> (forall r, r ∈ imported fx -> R r) /\ waits_in R a'.
  Proof using Hgood Hvals Hacyc.
    revert a q fx. induction fuel as [|f IH]; intros a [|sb q] fx Hr HP HW Hq Hw H; cbn [block_loop] in H; try done;
      try (injection H as <- <-; split; [intros r Hin; by apply elem_of_nil in Hin|done]).
    apply rbind_Ok in H as ([[a1 q1] fx1] & H1 & H). apply rbind_Ok in H as ([a2 fx2] & H2 & H).
    injection H as -> <-. cbn [fst snd] in *. pose proof Hacyc as (rank & Hrank).
    pose proof (pop_ok E C gt vals Hgood Hvals rank Hrank W a sb Hr HP HW) as Hok. rewrite H1 in Hok.
    destruct Hok as (Hr1 & HP1 & Hq1 & _).
    destruct (pop_goes E C _ _ _ _ _ _ H1) as (G & _).
    destruct (goes_mono E gt vals Hgood Hvals _ _ _ Hr G) as [_ Hmono].
    destruct (Hq sb ltac:(left)) as [Hs HR].
    destruct (pop_only R _ _ _ _ _ _ Hr HP HW Hs H1 HR Hw) as (O1 & O2 & O3).
    destruct (IH a1 (q ++ q1) fx2) as [I1 I2]; try done.
    { intros x Hx. apply elem_of_app in Hx as [Hx|Hx]; [|split; [by apply Hq1|by apply O3]].
      destruct (Hq x ltac:(by right)). split; [by apply Hmono|done]. }
    split; [|done]. intros r Hin. rewrite imported_app in Hin. apply elem_of_app in Hin as [?|?]; auto.
  Qed.
  Lemma step_only (R : H256 -> Prop) W a sb g a' fx : reach (ac_node a) -> pending_ok a -> world_ok W ->
    has_state (tab (ac_node a)) (b_parent (sb_block sb)) = true -> R (rt sb) -> waits_in R a ->
    actor_step E C W a (m_block sb g) = Ok (a', fx) -> (forall r, r ∈ imported fx -> R r) /\ waits_in R a'.
  Proof using Hgood Hvals Hacyc.
    intros Hr HP HW Hs HR Hw H. cbn [actor_step] in H. apply rbind_Ok in H as ([a1 fx1] & H1 & H). injection H as <- <-. cbn [fst snd].
    unfold actor_on_block in H1. apply rbind_Ok in H1 as ([a2 fx2] & H1 & H2).
    apply rbind_Ok in H2 as (d & Hd & H2). injection H2 as <- <-. cbn [fst snd] in *.
    destruct (loop_only R _ _ _ [sb] _ _ Hr HP HW ltac:(intros x Hx; apply elem_of_list_singleton in Hx as ->; done) Hw H1) as [O1 O2].
    split; [|done]. intros r Hin. apply O1. rewrite imported_app in Hin. by destruct g.
  Qed.

  (** *** The chain *)
  Context (p : Node) (a : Actor) (bs : list SignedBlock) (post : H256 -> State).
  Context (Hbody : forall l, e_body E l = e_body E [] -> l = []).
  Context (Ha : actor_reachable E C gt vals a) (Hclock : clock_fits (ac_node a)) (Hempty : ac_pend a = ∅).
  Context (Hchain : chained E bs) (Hvalid : valid_tree E (ac_node a) bs post).
  Context (Hfirst : forall sb, head bs = Some sb -> has_state (tab (ac_node a)) (b_parent (sb_block sb)) = true).
  Context (Hnew : forall sb, sb ∈ bs -> t_headers (tab (ac_node a)) !! rt sb = None /\
    cp_slot (db_fin (nd_db (ac_node a))) < b_slot (sb_block sb) /\
    5 * b_slot (sb_block sb) <= db_time (nd_db (ac_node a)) + 1).
  Context (Hold : forall r s sb, read_state (tab (ac_node a)) r = Ok (Some s) -> sb ∈ bs ->
    cp_slot (s_finalized s) < b_slot (sb_block sb)).
  Context (Hpeer : forall sb, sb ∈ bs -> get_signed_block hb (tab p) (rt sb) = Some sb).

  Lemma rt_inj x y : x ∈ bs -> y ∈ bs -> rt x = rt y -> x = y.
  Proof. intros Hx Hy He. pose proof (Hpeer _ Hx) as H1. rewrite He, (Hpeer _ Hy) in H1. congruence. Qed.
  Lemma post_slot x : x ∈ bs -> s_slot (post (rt x)) = b_slot (sb_block x).
  Proof.
    intros Hx. destruct (Hvalid _ Hx) as (q & (_ & _ & _ & _ & s & Hs & ->) & _).
    apply state_transition_links in Hs as (_ & _ & _ & _ & Hs & _). exact Hs.
  Qed.
  Lemma slot_next i x y : bs !! i = Some x -> bs !! S i = Some y -> b_slot (sb_block x) < b_slot (sb_block y).
  Proof.
    intros Hx Hy. pose proof (Hchain _ _ _ Hx Hy) as Hp.
    assert (x ∈ bs) as Ix by (by eapply elem_of_list_lookup_2). assert (y ∈ bs) as Iy by (by eapply elem_of_list_lookup_2).
    destruct (Hvalid _ Iy) as (q & (_ & _ & _ & _ & s & Hs & _) & [Hq|(z & _ & _ & ->)]).
    - exfalso. rewrite Hp in Hq. destruct (Hnew _ Ix) as [Hn _].
      destruct (reachable_inv E gt vals Hgood Hvals _ (actor_reach_node E C gt vals a Ha)) as (A & As & w & [Hi _] & _).
      destruct (w !! rt x) as [s'|] eqn:Hw.
      + destruct (w_header _ _ _ _ _ _ _ _ _ Hi Hw) as (Hh & _). unfold tab in Hn. congruence.
      + pose proof (w_read_none _ _ _ _ _ _ _ _ Hi Hw). unfold tab in Hq. congruence.
    - apply state_transition_links in Hs as (Hs & _). rewrite Hp, post_slot in Hs by done. done.
  Qed.
  Lemma slot_later i j x y : (i < j)%nat -> bs !! i = Some x -> bs !! j = Some y -> b_slot (sb_block x) < b_slot (sb_block y).
  Proof.
    intros Hij Hx. revert y. induction Hij as [|j Hij IH]; intros y Hy; [by eapply slot_next|].
    destruct (bs !! j) as [z|] eqn:Hz.
    - pose proof (IH z eq_refl). pose proof (slot_next _ _ _ Hz Hy). lia.
    - apply lookup_ge_None in Hz. apply lookup_lt_Some in Hy. lia.
  Qed.

  Definition fine (x : World * bool) : Prop :=
    world_ok x.1 /\ wall_fits x.1 (ac_node a) /\ forall n s v, w_build x.1 n s v = None.
  Record delivered (tr : list (World * message * list Effect)) (d : list SignedBlock) : Prop := {
    de_only : forall W m fx, (W, m, fx) ∈ tr ->
      (exists y g, m = m_block y g /\ y ∈ d) /\ forall n s v, w_build W n s v = None;
    de_all : forall y, y ∈ d -> exists W g fx, (W, m_block y g, fx) ∈ tr }.
  Lemma delivered_more tr d x W g fx : delivered tr d -> (forall n s v, w_build W n s v = None) ->
    delivered (tr ++ [(W, m_block x g, fx)]) (x :: d).
  Proof.
    intros [H1 H2] HW. split.
    - intros W' m fx' Hin. apply elem_of_app in Hin as [Hin|Hin].
      + destruct (H1 _ _ _ Hin) as [(y & g' & -> & Hy) ?]. split; [|done]. exists y, g'. split; [done|by right].
      + apply elem_of_list_singleton in Hin. injection Hin as -> -> ->. split; [|done]. exists x, g. split; [done|left].
    - intros y Hy. apply elem_of_cons in Hy as [->|Hy].
      + exists W, g, fx. apply elem_of_app. right. by apply elem_of_list_singleton.
      + destruct (H2 _ Hy) as (W' & g' & fx' & Hin). exists W', g', fx'. apply elem_of_app. by left.
  Qed.
  Definition roots_of (d : list SignedBlock) (r : H256) : Prop := exists y, y ∈ d /\ r = rt y.
  Record waiting (tr : list (World * message * list Effect)) (c : Actor) (d : list SignedBlock) : Prop := {
    wa_run : actor_run E C a tr c;
    wa_del : delivered tr d;
    wa_same : forall r, ~ roots_of d r -> t_headers (tab (ac_node c)) !! r = t_headers (tab (ac_node a)) !! r;
    wa_new : forall y, y ∈ d -> t_headers (tab (ac_node c)) !! rt y = Some (header_of hb (sb_block y));
    wa_state : forall r, has_state (tab (ac_node c)) r = has_state (tab (ac_node a)) r;
    wa_fin : db_fin (nd_db (ac_node c)) = db_fin (nd_db (ac_node a));
    wa_time : db_time (nd_db (ac_node c)) = db_time (nd_db (ac_node a));
    wa_gt : db_gt (nd_db (ac_node c)) = db_gt (nd_db (ac_node a));
    wa_in : waits_in (roots_of d) c }.

  (** All blocks have been delivered. *)
  Record finished (tr : list (World * message * list Effect)) (c : Actor) : Prop := {
    fi_run : actor_run E C a tr c;
    fi_del : delivered tr bs;
    fi_new : forall i y, bs !! S i = Some y -> t_headers (tab (ac_node c)) !! rt y = Some (header_of hb (sb_block y));
    fi_state : forall r, has_state (tab (ac_node c)) r = true -> has_state (tab (ac_node a)) r = true \/ roots_of bs r;
    fi_in : waits_in (roots_of bs) c }.

  Lemma last_step W g x d tr c : bs = x :: d -> waiting tr c d -> fine (W, g) ->
    exists a' fx, actor_step E C W c (m_block x g) = Ok (a', fx) /\ fetched fx = [] /\
      finished (tr ++ [(W, m_block x g, fx)]) a'.
  Proof.
    intros Hbs [W1 W2 W3 W4 W5 W6 W7 W8 W9] (F1 & F2 & F3). cbn [fst] in *.
    pose proof (reach_more _ _ _ Ha W1) as Hc. pose proof (actor_reach E C gt vals Hgood Hvals c Hc Hacyc) as [Hr HP].
    assert (has_state (tab (ac_node c)) (b_parent (sb_block x)) = true) as Hs by (rewrite W5; apply Hfirst; by rewrite Hbs).
    destruct (C60_pf E C gt vals Hgood Hvals Hacyc W c (m_block x g) Hc F1) as [(a' & fx & Hst)|(_ & sb & g' & r & h & [= <- _] & Hf & _)].
    { unfold clock_fits. rewrite W7. exact Hclock. }
    { unfold wall_fits. rewrite W8. exact F2. }
    2: congruence.
    exists a', fx. split; [done|]. pose proof Hacyc as (rank & Hrank). split.
    { destruct (block_fetch E C gt vals Hgood Hvals rank Hrank W c x g a' fx Hr HP F1 Hst) as [[H _]|(r & _ & _ & Hf & _)]; [done|congruence]. }
    assert (actor_run E C c ([] ++ [(W, m_block x g, fx)]) a') as Hrun1 by (econstructor; [constructor|done|done]). cbn [app] in Hrun1.
    destruct (step_only (roots_of bs) W c x g a' fx Hr HP F1 Hs) as [O1 O2]; try done.
    { exists x. rewrite Hbs. split; [left|done]. }
    { intros q cs r H1 H2. destruct (W9 _ _ _ H1 H2) as (y & Hy & ->). exists y. rewrite Hbs. split; [by right|done]. }
    split; [by eapply run_join|rewrite Hbs; by apply delivered_more| | |done].
    - intros i y Hy. rewrite Hbs in Hy. cbn in Hy. apply elem_of_list_lookup_2 in Hy.
      pose proof (step_goes E C _ _ _ _ _ Hst) as G. destruct (goes_mono E gt vals Hgood Hvals _ _ _ Hr G) as [Hg _].
      apply Hg. by apply W4.
    - intros r Hs'. destruct (has_state (tab (ac_node a)) r) eqn:He; [by left|]. right. apply O1.
      destruct (C41_once_pf E C gt vals Hgood Hvals c _ a' Hc Hrun1) as (_ & Hi & _).
      unfold effects in Hi. cbn [map concat snd] in Hi. rewrite app_nil_r in Hi. apply Hi. split; [done|]. by rewrite W5.
  Qed.

  Lemma exchange_goes l : forall x d tr c Ws, bs = l ++ x :: d -> waiting tr c d ->
    (length l < length Ws)%nat -> Forall fine Ws ->
    exists a' tr', exchange E C p Ws c [x] = Ok (a', reverse (map (fun sb => rt sb) l), []) /\ finished tr' a'.
  Proof.
    induction l as [|y l IH] using rev_ind; intros x d tr c Ws Hbs Hwa Hlen Hf;
      destruct Ws as [|[W g] Ws]; try (cbn in Hlen; lia); apply Forall_cons_1 in Hf as [Hf Hfs]; cbn [exchange].
    { destruct (last_step W g x d tr c Hbs Hwa Hf) as (a' & fx & -> & He & Hfin). cbn [rbind fst snd]. rewrite He.
      cbn [map concat app]. exists a', (tr ++ [(W, m_block x g, fx)]). split; [by destruct Ws as [|[]]|done]. }
    rewrite <- app_assoc in Hbs. cbn [app] in Hbs.
    assert (bs !! length l = Some y) as Ly by (rewrite Hbs; by apply list_lookup_middle).
    assert (bs !! S (length l) = Some x) as Lx.
    { rewrite Hbs, lookup_app_r by lia. by replace (S (length l) - length l)%nat with 1%nat by lia. }
    assert (forall j z, d !! j = Some z -> bs !! (S (S (length l)) + j)%nat = Some z) as Ld.
    { intros j z Hz. rewrite Hbs, lookup_app_r by lia. by replace (S (S (length l)) + j - length l)%nat with (S (S j)) by lia. }
    assert (y ∈ bs) as Iy by (by eapply elem_of_list_lookup_2). assert (x ∈ bs) as Ix by (by eapply elem_of_list_lookup_2).
    assert (forall i z, (i <= S (length l))%nat -> bs !! i = Some z -> ~ roots_of d (rt z)) as Hout.
    { intros i z Hi Hz (z' & Hz' & He). apply elem_of_list_lookup_1 in Hz' as (j & Hj). apply Ld in Hj.
      assert (z = z') as -> by (apply rt_inj; [by eapply elem_of_list_lookup_2..|done]).
      pose proof (slot_later i (S (S (length l)) + j) z' z' ltac:(lia) Hz Hj). lia. }
    pose proof (Hchain _ _ _ Ly Lx) as Hp. pose proof Hwa as [W1 W2 W3 W4 W5 W6 W7 W8 W9].
    pose proof (reach_more _ _ _ Ha W1) as Hc. pose proof (actor_reach E C gt vals Hgood Hvals c Hc Hacyc) as [Hr HP].
    destruct (Hnew _ Ix) as (N1 & N2 & N3). destruct (Hnew _ Iy) as (M1 & _).
    destruct Hf as (F1 & F2 & F3). cbn [fst] in *.
    destruct (pend_exact W g c x Hr HP) as (a1 & fx & Hst & He & P1 & P2 & P3 & P4 & P5 & P6).
    { by rewrite W6. } { by rewrite W7. }
    { rewrite Hp, W3; [done|]. by eapply (Hout (length l)); [lia|]. }
    { rewrite W3; [done|]. by eapply (Hout (S (length l))); [lia|]. }
    rewrite Hst. cbn [rbind fst snd]. rewrite He, Hp. cbn [map concat app].
    assert (answer E p (rt y) = [y]) as -> by (unfold answer, handle_blocks_by_root; cbn [found_blocks]; by rewrite (Hpeer _ Iy)).
    cbn [app].
    destruct (IH y (x :: d) (tr ++ [(W, m_block x g, fx)]) a1 Ws) as (a' & tr' & Hex & Hfin); try done.
    - split; try congruence.
      + by econstructor.
      + by apply delivered_more.
      + intros r Hr'. rewrite P1, lookup_insert_ne.
        * apply W3. intros (z & Hz & ->). apply Hr'. exists z. split; [by right|done].
        * intros <-. apply Hr'. exists x. split; [left|done].
      + intros z Hz. rewrite P1. destruct (decide (rt x = rt z)) as [Hxz|Hne].
        * rewrite Hxz, lookup_insert. do 2 f_equal.
          assert (z ∈ bs) as Iz by (rewrite Hbs; apply elem_of_app; right; by right).
          by rewrite (rt_inj _ _ Ix Iz Hxz).
        * rewrite lookup_insert_ne by done. apply elem_of_cons in Hz as [->|Hz]; [done|by apply W4].
      + intros q cs r H1 H2. rewrite P6 in H1. destruct (decide (b_parent (sb_block x) = q)) as [<-|Hne].
        * rewrite lookup_insert in H1. injection H1 as <-. apply elem_of_union in H2 as [H2|H2].
          -- apply elem_of_singleton in H2 as ->. exists x. split; [left|done].
          -- destruct (ac_pend c !! b_parent (sb_block x)) as [cs|] eqn:Hq; cbn [default] in H2; [|by apply elem_of_empty in H2].
             destruct (W9 _ _ _ Hq H2) as (z & Hz & ->). exists z. split; [by right|done].
        * rewrite lookup_insert_ne in H1 by done. destruct (W9 _ _ _ H1 H2) as (z & Hz & ->). exists z. split; [by right|done].
    - rewrite app_length in Hlen. cbn in Hlen. lia.
    - exists a', tr'. rewrite Hex. cbn [rbind fst snd]. split; [|done].
      rewrite map_app, reverse_app. cbn [map]. by rewrite reverse_singleton.
  Qed.

  (** No state of the node at the end finalizes past a block of the chain on another branch. *)
  Lemma chain_anc tr c i j x y : finished tr c -> (i < j)%nat -> bs !! i = Some x -> bs !! j = Some y ->
    strict_anc (tab (ac_node c)) (rt x) (rt y).
  Proof.
    intros Hfin Hij Hx. revert y. induction Hij as [|j Hij IH]; intros y Hy.
    - apply sa_one. exists (header_of hb (sb_block y)). split; [by eapply fi_new|]. by apply (Hchain i).
    - destruct (bs !! j) as [z|] eqn:Hz.
      + apply (sa_more _ _ _ (rt z)); [|by apply IH].
        exists (header_of hb (sb_block y)). split; [by eapply fi_new|]. by apply (Hchain j).
      + apply lookup_ge_None in Hz. apply lookup_lt_Some in Hy. lia.
  Qed.
  Lemma finished_fin tr c sb r s : finished tr c -> sb ∈ bs -> read_state (tab (ac_node c)) r = Ok (Some s) ->
    b_slot (sb_block sb) <= cp_slot (s_finalized s) -> strict_anc (tab (ac_node c)) (rt sb) r.
  Proof.
    intros Hfin Hsb Hs Hle. pose proof (run_goes E C _ _ _ (fi_run _ _ Hfin)) as (t & Ht & _). apply traced_run in Ht.
    pose proof (actor_reach_node E C gt vals a Ha) as Hr.
    destruct (reachable_inv E gt vals Hgood Hvals _ Hr) as (A & As & w & Hn & _).
    destruct (run_inv E gt vals Hgood Hvals _ _ _ _ _ _ Hn Ht) as (w' & Hok). destruct (so_inv _ _ _ _ _ _ _ _ _ Hok) as [Hi' _].
    destruct Hn as [Hi _].
    destruct (w' !! r) as [s'|] eqn:Hw'.
    2:{ pose proof (w_read_none _ _ _ _ _ _ _ _ Hi' Hw'). unfold tab in Hs. congruence. }
    pose proof (w_read _ _ _ _ _ _ _ _ _ Hi' Hw') as Hrd. unfold tab in Hs. assert (s' = s) as -> by congruence.
    destruct (fi_state _ _ Hfin r) as [Hst|(y & Hy & ->)].
    { rewrite (inv_state _ _ _ _ _ _ _ _ Hi'). apply bool_decide_eq_true. by eexists. }
    - rewrite (inv_state _ _ _ _ _ _ _ _ Hi) in Hst. apply bool_decide_eq_true in Hst as [s0 Hs0].
      pose proof (so_w _ _ _ _ _ _ _ _ _ Hok _ _ Hs0) as Hw2. assert (s0 = s) as -> by congruence.
      pose proof (w_read _ _ _ _ _ _ _ _ _ Hi Hs0) as H0. pose proof (Hold _ _ _ H0 Hsb). lia.
    - destruct (w_chain_facts E gt vals Hgood _ _ _ _ _ _ Hi' Hw') as (_ & _ & Hsl & _ & Hfj & Hj & _).
      destruct (w_header _ _ _ _ _ _ _ _ _ Hi' Hw') as (Hh & _).
      pose proof (si_hash _ _ _ _ _ (di_st _ _ _ _ _ _ _ Hi') _ _ Hh) as Heq. apply (proj1 Hgood) in Heq.
      assert (s_slot s = b_slot (sb_block y)) as Hsy by (rewrite Hsl, Heq; done).
      assert (b_slot (sb_block sb) < b_slot (sb_block y)) as Hlt.
      { destruct (Hnew _ Hsb) as (_ & Hpos & _). lia. }
      apply elem_of_list_lookup_1 in Hsb as (i & Li). apply elem_of_list_lookup_1 in Hy as (j & Lj).
      apply (chain_anc tr c i j); try done. destruct (decide (i < j)%nat) as [?|Hge]; [done|].
      destruct (decide (i = j)) as [->|Hne]; [assert (sb = y) as -> by congruence; lia|].
      pose proof (slot_later j i _ _ ltac:(lia) Lj Li). lia.
  Qed.

  Lemma catch_up l x Ws : bs = l ++ [x] -> (length l < length Ws)%nat -> Forall fine Ws ->
    exists a', exchange E C p Ws a [x] = Ok (a', reverse (map (fun sb => rt sb) l), []) /\
      (forall sb, sb ∈ bs -> read_state (tab (ac_node a')) (rt sb) = Ok (Some (post (rt sb)))) /\
      ac_pend a' = ∅ /\ ac_par a' = ∅.
  Proof.
    intros Hbs Hlen Hf. destruct (exchange_goes l x [] [] a Ws Hbs) as (a' & tr & Hex & Hfin); try done.
    { split; try done.
      - constructor.
      - split; [intros W m fx H; by apply elem_of_nil in H|intros y H; by apply elem_of_nil in H].
      - intros y H. by apply elem_of_nil in H.
      - intros q cs r H1. rewrite Hempty in H1. by rewrite lookup_empty in H1. }
    exists a'. split; [exact Hex|].
    pose proof (reach_more _ _ _ Ha (fi_run _ _ Hfin)) as Ha'.
    pose proof (actor_reach E C gt vals Hgood Hvals a' Ha' Hacyc) as [_ HP].
    pose proof (C41_all_pf E C gt vals Hgood Hvals Hacyc a tr a' bs post Hbody Ha (fi_run _ _ Hfin) rt_inj Hvalid) as Hall.
    assert (genuine E bs tr) as Hgen.
    { intros W m fx sb Hin Hsb. destruct (de_only _ _ (fi_del _ _ Hfin) _ _ _ Hin) as [(y & g & -> & Hy) HW]. split.
      - intros z g' [= -> _] He. by apply rt_inj.
      - intros n s v z Hz. by rewrite HW in Hz. }
    specialize (Hall Hgen Hnew (de_all _ _ (fi_del _ _ Hfin))).
    specialize (Hall (fun sb r s => finished_fin tr a' sb r s Hfin)).
    assert (ac_pend a' = ∅) as Hpe.
    { apply map_empty. intros q. destruct (ac_pend a' !! q) as [cs|] eqn:Hq; [|done]. exfalso.
      destruct (set_choose_L cs (po_nonempty _ HP _ _ Hq)) as (r & Hr).
      destruct (fi_in _ _ Hfin _ _ _ Hq Hr) as (y & Hy & ->). destruct (Hall _ Hy) as (_ & Hno & _). by eapply Hno. }
    split; [intros sb Hsb; by apply Hall|]. split; [done|].
    apply map_empty. intros r. destruct (ac_par a' !! r) eqn:Hq; [|done]. exfalso.
    destruct (proj1 (po_same _ HP r)) as (q & cs & H1 & _); [by eexists|]. rewrite Hpe in H1. by rewrite lookup_empty in H1.
  Qed.
End Catchup.
