(** Actor proofs: reachable actors, the pending maps in every history (C42), what
    makes a message handler panic (C60). *)
From Verif Require Export ActorMaps NodeThms4.

Section Safe.
  Context (E : Env) (C : Config) (gt : N) (vals : list Validator).
  Context (Hgood : good_hash (e_header E)) (Hvals : lenN vals <= VALIDATOR_REGISTRY_LIMIT).
  Notation hb := (e_body E).
  Notation root_ := (block_root (e_header E) (e_body E)).
  Notation reach := (reachable E gt vals).

  Lemma reach_run n es n' : reach n -> node_run E n es n' -> reach n'.
  Proof.
    intros (a & n0 & es0 & Ha & Hs & Hr) Hr'. exists a, n0, (es0 ++ es). split_and!; [done|done|by eapply run_app].
  Qed.
  Lemma reach_goes n fx n' : reach n -> goes E n fx n' -> reach n'.
  Proof. intros Hr (tr & Ht & _). apply traced_run in Ht. by eapply reach_run. Qed.
  Lemma run_mono n es n' : reach n -> node_run E n es n' ->
    grows (tab n) (tab n') /\ (forall r, has_state (tab n) r = true -> has_state (tab n') r = true).
  Proof.
    intros Hr Hrun. destruct (reachable_inv E gt vals Hgood Hvals _ Hr) as (A & As & w & Hn & _).
    destruct (run_inv E gt vals Hgood Hvals _ _ _ _ _ _ Hn Hrun) as (w' & Hs).
    split; [exact (so_headers _ _ _ _ _ _ _ _ _ Hs)|]. intros r. unfold tab.
    rewrite (has_state_spec _ _ _ _ _ r (di_st _ _ _ _ _ _ _ (proj1 Hn))).
    rewrite (has_state_spec _ _ _ _ _ r (di_st _ _ _ _ _ _ _ (proj1 (so_inv _ _ _ _ _ _ _ _ _ Hs)))).
    rewrite !bool_decide_eq_true. intros [s H]. exists s. by apply (so_w _ _ _ _ _ _ _ _ _ Hs).
  Qed.
  Lemma goes_mono n fx n' : reach n -> goes E n fx n' ->
    grows (tab n) (tab n') /\ (forall r, has_state (tab n) r = true -> has_state (tab n') r = true).
  Proof. intros Hr (tr & Ht & _). apply traced_run in Ht. by eapply run_mono. Qed.
  Lemma import_has_state n sb n' : reach n -> on_block E n sb = Ok n' -> has_state (tab n') (root_ (sb_block sb)) = true.
  Proof.
    intros Hr Hok. destruct (reachable_inv E gt vals Hgood Hvals _ Hr) as (A & As & w & Hn & _).
    destruct (on_block_step E gt vals Hgood Hvals _ _ _ _ _ _ Hn Hok) as (w' & Hs & Hw).
    unfold tab. rewrite (has_state_spec _ _ _ _ _ _ (di_st _ _ _ _ _ _ _ (proj1 (so_inv _ _ _ _ _ _ _ _ _ Hs)))).
    by apply bool_decide_eq_true.
  Qed.
  Lemma reach_header n r : reach n -> has_state (tab n) r = true -> is_Some (t_headers (tab n) !! r).
  Proof.
    intros Hr Hs. destruct (reachable_inv E gt vals Hgood Hvals _ Hr) as (A & As & w & Hn & _).
    unfold tab in Hs. rewrite (has_state_spec _ _ _ _ _ _ (di_st _ _ _ _ _ _ _ (proj1 Hn))) in Hs.
    apply bool_decide_eq_true in Hs as [s Hs]. destruct (w_header _ _ _ _ _ _ _ _ _ (proj1 Hn) Hs) as (Hh & _).
    by eexists.
  Qed.
  Lemma slot_of_head_ok n : reach n ->
    (exists s, slot_of_root n (db_head (nd_db n)) = Ok s) /\ (exists s, slot_of_root n (db_safe (nd_db n)) = Ok s).
  Proof.
    intros Hr. destruct (reachable_inv E gt vals Hgood Hvals _ Hr) as (A & As & w & [Hi _] & _).
    unfold slot_of_root, get_header, tab.
    destruct (di_head _ _ _ _ _ _ _ Hi) as [s Hs]. destruct (w_header _ _ _ _ _ _ _ _ _ Hi Hs) as (-> & _).
    destruct (di_safe _ _ _ _ _ _ _ Hi) as [s' Hs']. destruct (w_header _ _ _ _ _ _ _ _ _ Hi Hs') as (-> & _).
    split; by eexists.
  Qed.
  Lemma head_state_ok n : reach n -> exists s, head_state n = Ok s.
  Proof.
    intros Hr. destruct (reachable_inv E gt vals Hgood Hvals _ Hr) as (A & As & w & [Hi _] & _).
    unfold head_state, tab. destruct (di_head _ _ _ _ _ _ _ Hi) as [s Hs].
    rewrite (w_read _ _ _ _ _ _ _ _ _ Hi Hs). by exists s.
  Qed.
  Lemma reach_ranked n rank : (forall h, rank (h_parent h) < rank (e_header E h)) -> reach n -> ranked rank (tab n).
  Proof.
    intros Hrank Hr x h Hx. destruct (reachable_inv E gt vals Hgood Hvals _ Hr) as (A & As & w & [Hi _] & _).
    rewrite <- (inv_hashed _ _ _ _ _ _ _ Hi _ _ Hx). apply Hrank.
  Qed.

  Lemma import_no_panic W n sb : reach n -> import_and_emit E W n sb <> Panic.
  Proof.
    intros Hr. unfold import_and_emit. destruct (reachable_inv E gt vals Hgood Hvals _ Hr) as (A & As & w & Hn & _).
    pose proof (inv_on_block E gt vals Hgood Hvals _ _ _ _ sb Hn) as H.
    assert (on_block E n sb <> Panic) as Hnp.
    { destruct (check_block E (nd_db n) sb) as [[post|]|e|]; [| | |done].
      - destruct H as (n' & ds & w' & -> & _). done.
      - destruct H as [-> _]. done.
      - destruct H as [-> _]. done. }
    destruct (on_block E n sb) as [n'|e|] eqn:Hon; cbn [rbind]; [|done|done].
    assert (reach n') as Hr'.
    { eapply reach_run; [exact Hr|]. apply run_one. instantiate (1 := ev_block sb). cbn. by rewrite Hon. }
    destruct (slot_of_head_ok _ Hr') as [[s ->] _]. done.
  Qed.
  Lemma reagg_ok W a sb : reach (ac_node a) -> exists a' fx, run_reaggregate E C W a sb = Ok (a', fx).
  Proof.
    intros Hr. unfold run_reaggregate. destruct (duties_allowed C a); [|by eauto].
    destruct (reachable_inv E gt vals Hgood Hvals _ Hr) as (A & As & w & Hn & _).
    destruct (batch_step E gt vals Hvals _ _ _ _ (w_reagg W (ac_node a) sb) Hn) as (n1 & -> & _). by eauto.
  Qed.

  (** Stored blocks as read back. *)
  Lemma signed_parent t r sb : get_signed_block hb t r = Some sb -> parent_of t r (b_parent (sb_block sb)).
  Proof.
    unfold get_signed_block. destruct (t_headers t !! r) as [h|] eqn:Hh; [|done].
    destruct (if _ =? _ then _ else _); [|done]. intros H. exists h. split; [done|].
    destruct (t_proofs t !! _); [|destruct (_ =? _); [|done]]; by injection H as <-.
  Qed.
  Lemma written_read t r sb : get_signed_block hb (write_signed_block hb t r sb) r <> None.
  Proof.
    unfold get_signed_block, write_signed_block. destruct (h_body_root _ =? EMPTY_BODY_ROOT hb) eqn:He; cbn;
      rewrite !lookup_insert; cbn [header_of h_body_root] in *; rewrite ?He, ?lookup_insert; done.
  Qed.
  Lemma written_other t r sb x : x <> r ->
    get_signed_block hb (write_signed_block hb t r sb) x = get_signed_block hb t x.
  Proof.
    intros Hne. unfold get_signed_block, write_signed_block. destruct (h_body_root _ =? EMPTY_BODY_ROOT hb) eqn:He; cbn;
      rewrite !lookup_insert_ne by done; (destruct (t_headers t !! x) as [h|]; [|done]);
      (destruct (if _ =? _ then _ else _); [|done]); rewrite ?lookup_insert_ne by congruence; done.
  Qed.
  Lemma written_state t r sb x : has_state (write_signed_block hb t r sb) x = has_state t x.
  Proof. unfold has_state, write_signed_block. by destruct (_ =? _). Qed.
  Lemma written_headers t r sb : t_headers (write_signed_block hb t r sb) = <[r := header_of hb (sb_block sb)]> (t_headers t).
  Proof. unfold write_signed_block. by destruct (_ =? _). Qed.
  Context (rank : H256 -> N) (Hrank : forall h, rank (h_parent h) < rank (e_header E h)).
  Lemma lost_written t r sb p : ranked rank t -> rank p < rank r ->
    lost_above E (write_signed_block hb t r sb) p -> lost_above E t p.
  Proof.
    intros Hrk Hp (x & h & Hx & Hh & Hs & Hg).
    assert (forall q, rank q < rank r -> strict_anc (write_signed_block hb t r sb) x q -> strict_anc t x q /\ rank x < rank r) as Han.
    { intros q Hq H. induction H as [c (h' & H1 & H2)|c q' (h' & H1 & H2) _ IH];
        rewrite written_headers, lookup_insert_ne in H1 by (intros ->; lia); pose proof (Hrk _ _ H1) as Hlt; rewrite H2 in Hlt.
      - split; [apply sa_one; by exists h'|lia].
      - destruct IH as [IH1 IH2]; [lia|]. split; [|done]. eapply sa_more; [by exists h'|done]. }
    assert ((x = p \/ strict_anc t x p) /\ rank x < rank r) as [Hx' Hxr].
    { destruct Hx as [->|Hx]; [split; [by left|done]|]. destruct (Han _ Hp Hx). split; [by right|done]. }
    assert (x <> r) as Hne by (intros ->; lia).
    rewrite written_other in Hg by done. rewrite written_headers, lookup_insert_ne in Hh by done.
    rewrite written_state in Hs. by exists x, h.
  Qed.

  Lemma pop_ok W a sb :
    reach (ac_node a) -> pending_ok a -> world_ok W ->
    match process_or_pend_block E C W a sb with
    | Ok (a', q, fx) =>
        reach (ac_node a') /\ pending_ok a' /\
        (forall x, x ∈ q -> has_state (tab (ac_node a')) (b_parent (sb_block x)) = true) /\
        (if has_state (tab (ac_node a)) (b_parent (sb_block sb))
         then (length q + size (ac_par a') <= size (ac_par a))%nat
         else (length q <= 1)%nat /\ (size (t_headers (tab (ac_node a'))) <= S (size (t_headers (tab (ac_node a)))))%nat)
    | Err _ => False
    | Panic => has_state (tab (ac_node a)) (b_parent (sb_block sb)) = false /\ lost_above E (tab (ac_node a)) (b_parent (sb_block sb))
    end.
  Proof.
    intros Hr HP HW. pose proof (reach_ranked _ _ Hrank Hr) as Hrk.
    pose proof (pop_goes E C W a sb) as Hgoes.
    unfold process_or_pend_block in *. set (root := root_ (sb_block sb)) in *.
    set (n := ac_node a) in *. destruct (has_state (tab n) (b_parent (sb_block sb))) eqn:Hp.
    all: destruct (discard_ok rank W a root HW HP Hrk) as (ad & Had & HPd & (Hnd & _) & _ & Hqd).
    all: assert (size (ac_par ad) <= size (ac_par a))%nat as Hsz
      by (apply size_le; intros k [m Hm]; apply Hqd in Hm as [Hm _]; by exists m).
    all: destruct (b_slot (sb_block sb) <=? cp_slot (db_fin (nd_db n)));
      [rewrite Had; cbn [rbind]; rewrite Hnd; fold n; split_and!; try done; try (intros x Hx; by apply elem_of_nil in Hx); cbn; lia|].
    all: destruct (_ <? _);
      [rewrite Had; cbn [rbind]; rewrite Hnd; fold n; split_and!; try done; try (intros x Hx; by apply elem_of_nil in Hx); cbn; lia|].
    all: cbn [negb] in *.
    - pose proof (import_no_panic W n sb Hr) as Hnp.
      destruct (import_and_emit E W n sb) as [[n' fx]|e|] eqn:Him; [| |done].
      + assert (on_block E n sb = Ok n') as Hon.
        { unfold import_and_emit in Him. apply rbind_Ok in Him as (n1 & H1 & Him).
          apply rbind_Ok in Him as (? & _ & Him). by injection Him as <- _. }
        pose proof (import_goes _ _ _ _ _ _ Him) as G1. pose proof (reach_goes _ _ _ Hr G1) as Hr1.
        destruct (goes_mono _ _ _ Hr G1) as [Hg1 _].
        destruct (reagg_ok W (with_node a n') sb Hr1) as (a1 & fx1 & Hre). rewrite Hre in *. cbn [rbind fst snd] in *.
        apply reagg_goes in Hre as (G2 & Ha1 & Hdb). cbn [ac_node with_node] in G2, Hdb.
        destruct (goes_mono _ _ _ Hr1 G2) as [Hg2 _].
        assert (pending_ok a1) as HP1.
        { apply (pending_grow a); [|by rewrite Ha1|by rewrite Ha1|done].
          intros r h Hh. apply Hg2, Hg1. done. }
        assert (ac_node (collect_pending_children E W a1 root).1 = ac_node a1) as Hnc
          by (unfold collect_pending_children; by destruct (ac_pend a1 !! root)).
        split_and!.
        * rewrite Hnc. by eapply reach_goes.
        * by apply collect_ok.
        * rewrite Hnc. intros x Hx. unfold collect_pending_children in Hx.
          destruct (ac_pend a1 !! root) as [cs|] eqn:Hcs; [|by apply elem_of_nil in Hx].
          cbn [snd] in Hx. apply elem_of_list_omap in Hx as (c & Hc & Hx). rewrite (HW cs), elem_of_elements in Hc.
          apply signed_parent in Hx. rewrite (parent_uniq _ _ _ _ Hx (po_parent _ HP1 _ _ _ Hcs Hc)).
          unfold tab. rewrite Hdb. exact (import_has_state n sb n' Hr Hon).
        * replace (ac_par a) with (ac_par a1) by (by rewrite Ha1). by apply collect_size.
      + split_and!; try done; intros x Hx; by apply elem_of_nil in Hx.
    - destruct (chase_ok rank a (size (ac_par a)) (b_parent (sb_block sb)) HP Hrk (cnt_le rank _ _)) as (m & Hm & Hmn & Hanc).
      rewrite Hm in *. cbn [rbind] in *.
      set (n' := with_db n _) in *. set (a1 := mkActor n' _ _ _ _) in *.
      assert (tab n' = write_signed_block hb (tab n) root sb) as Htab by done.
      assert (node_run E n [ev_pending sb] n' \/ True) as _ by (by right).
      assert (grows (tab n) (tab n')) as Hg.
      { intros r h Hh. rewrite Htab, written_headers. destruct (decide (r = root)) as [->|Hne]; [|by rewrite lookup_insert_ne].
        rewrite lookup_insert. f_equal. destruct (reachable_inv E gt vals Hgood Hvals _ Hr) as (A & As & w & [Hi _] & _).
        pose proof (inv_hashed _ _ _ _ _ _ _ Hi _ _ Hh) as Hhash. unfold root, block_root in Hhash.
        apply (proj1 Hgood) in Hhash. done. }
      assert (ranked rank (tab n')) as Hrk'.
      { intros x h Hx. rewrite Htab, written_headers in Hx. destruct (decide (x = root)) as [->|Hne].
        - rewrite lookup_insert in Hx. injection Hx as <-. unfold root, block_root. apply Hrank.
        - rewrite lookup_insert_ne in Hx by done. by apply Hrk. }
      assert (parent_of (tab n') root (b_parent (sb_block sb))) as Hpar.
      { exists (header_of hb (sb_block sb)). split; [|done]. by rewrite Htab, written_headers, lookup_insert. }
      assert (strict_anc (tab n') m root) as Han.
      { destruct Hanc as [->|Hanc]; [by apply sa_one|]. eapply sa_more; [exact Hpar|]. by eapply anc_grow. }
      assert (pending_ok a1) as HP1.
      { apply (register_ok (with_node a n') root (b_parent (sb_block sb)) m); [|done|done].
        apply (pending_grow a); done. }
      pose proof (walk_ok E rank n' (size (t_headers (tab n'))) a1 m eq_refl HP1 Hrk' (cnt_le rank _ _)) as Hwalk.
      destruct (walk_up E (size (t_headers (tab n'))) n' a1 m) as [[a2 x]|e|] eqn:Hw; [|done|].
      + cbn [rbind fst snd] in *. destruct Hwalk as (HP2 & _ & _ & Hx). pose proof (walk_maps _ _ _ _ _ _ _ Hw) as (Hn2 & _).
        cbn [ac_node] in Hn2. change (ac_node a1) with n' in Hn2.
        assert (reach n') as Hr'.
        { rewrite <- Hn2. destruct x as [sb'|r]; eapply reach_goes; try exact Hr; eapply Hgoes; done. }
        assert (size (t_headers (tab n')) <= S (size (t_headers (tab n))))%nat as Hsize.
        { rewrite Htab, written_headers, map_size_insert. destruct (t_headers (tab n) !! root); cbn; lia. }
        destruct x as [sb'|r]; rewrite Hn2; split_and!; try done.
        * intros y Hy. apply elem_of_list_singleton in Hy as ->. destruct Hx as (z & h & Hz & Hs & Hgz).
          apply signed_parent in Hgz. rewrite (parent_uniq _ _ _ _ Hgz ltac:(by exists h)). done.
        * intros y Hy. by apply elem_of_nil in Hy.
        * cbn. lia.
      + cbn [rbind]. split; [done|]. apply (lost_written _ root sb); [done| |].
        * apply (Hrank (header_of hb (sb_block sb))).
        * rewrite <- Htab. eapply lost_trans; [|exact Hwalk]. destruct Hanc as [->|Hanc]; [by left|right; by eapply anc_grow].
  Qed.

  Lemma par_size a : pending_ok a -> (size (ac_par a) <= size (t_headers (tab (ac_node a))))%nat.
  Proof.
    intros HP. apply size_le. intros k Hk. apply (po_same _ HP) in Hk as (p & cs & Hp & Hc).
    destruct (po_parent _ HP _ _ _ Hp Hc) as (h & Hh & _). by exists h.
  Qed.

  Lemma loop_ok fuel W a q :
    reach (ac_node a) -> pending_ok a -> world_ok W ->
    (forall x, x ∈ q -> has_state (tab (ac_node a)) (b_parent (sb_block x)) = true) ->
    (length q + size (ac_par a) <= fuel)%nat ->
    exists a' fx, block_loop E C fuel W a q = Ok (a', fx) /\ reach (ac_node a') /\ pending_ok a'.
  Proof.
    revert a q. induction fuel as [|f IH]; intros a [|sb q] Hr HP HW Hq Hf; cbn [block_loop length] in *;
      try (by eauto 6); [lia|].
    pose proof (pop_ok W a sb Hr HP HW) as H.
    pose proof (pop_goes E C W a sb) as Hgoes.
    rewrite (Hq sb) in H by left.
    destruct (process_or_pend_block E C W a sb) as [[[a1 q1] fx1]|e|]; [|done|by destruct H].
    destruct H as (Hr1 & HP1 & Hq1 & Hs1). cbn [rbind fst snd].
    destruct (Hgoes _ _ _ eq_refl) as (G & _). destruct (goes_mono _ _ _ Hr G) as [_ Hmono].
    destruct (IH a1 (q ++ q1) Hr1 HP1 HW) as (a' & fx' & -> & Hr' & HP').
    { intros x Hx. apply elem_of_app in Hx as [Hx|Hx]; [|by apply Hq1]. apply Hmono, Hq. by right. }
    { rewrite app_length. lia. }
    cbn [rbind fst snd]. eauto.
  Qed.

  Lemma on_block_ok W a sb :
    reach (ac_node a) -> pending_ok a -> world_ok W ->
    match actor_on_block E C W a sb with
    | Ok (a', fx) => reach (ac_node a') /\ pending_ok a'
    | Err _ => False
    | Panic => has_state (tab (ac_node a)) (b_parent (sb_block sb)) = false /\ lost_above E (tab (ac_node a)) (b_parent (sb_block sb))
    end.
  Proof.
    intros Hr HP HW. unfold actor_on_block.
    replace (size (t_headers (tab (ac_node a))) + 4)%nat with (S (size (t_headers (tab (ac_node a))) + 3)) by lia.
    cbn [block_loop app].
    pose proof (pop_ok W a sb Hr HP HW) as H. pose proof (par_size a HP) as Hps.
    destruct (process_or_pend_block E C W a sb) as [[[a1 q1] fx1]|e|]; [|done|done].
    destruct H as (Hr1 & HP1 & Hq1 & Hs1). cbn [rbind fst snd].
    destruct (loop_ok (size (t_headers (tab (ac_node a))) + 3) W a1 q1 Hr1 HP1 HW Hq1) as (a' & fx' & -> & Hr' & HP').
    { destruct (has_state _ _); [lia|]. destruct Hs1 as [H1 H2]. pose proof (par_size a1 HP1). lia. }
    cbn [rbind fst snd].
    destruct (reachable_inv E gt vals Hgood Hvals _ Hr') as (A & As & w & [Hi _] & _).
    destruct (db_inv_prune_old _ _ _ Hvals _ _ _ _ Hi) as (d' & Hd & _). rewrite Hd. cbn [rbind].
    assert (node_run E (ac_node a') [ev_prune] (with_db (ac_node a') d')) as Hrun.
    { apply run_one. cbn. by rewrite Hd. }
    split; cbn [ac_node with_node]; [by eapply reach_run|].
    apply (pending_grow a'); [|done|done|done]. by destruct (run_mono _ _ _ Hr' Hrun).
  Qed.

  (** ** Every message *)
  Lemma step_pending W a m a' fx :
    reach (ac_node a) -> pending_ok a -> world_ok W -> actor_step E C W a m = Ok (a', fx) ->
    reach (ac_node a') /\ pending_ok a'.
  Proof.
    intros Hr HP HW H. pose proof (step_goes _ _ _ _ _ _ _ H) as G. pose proof (reach_goes _ _ _ Hr G) as Hr'.
    split; [done|]. destruct (goes_mono _ _ _ Hr G) as [Hg _].
    destruct m as [|sb g|sa|sg| |id data p parts keys]; cbn [actor_step] in H.
    - apply tick_goes in H as (_ & H1 & H2). by apply (pending_grow a).
    - apply rbind_Ok in H as ([a1 fx1] & H1 & H). injection H as <- <-. pose proof (on_block_ok W a sb Hr HP HW) as Hok.
      rewrite H1 in Hok. by destruct Hok.
    - apply rbind_Ok in H as ([n1 fx1] & H1 & H). cbn [fst snd] in H.
      destruct (_ =? _) in H; [|injection H as <- <-; by apply (pending_grow a)].
      apply rbind_Ok in H as ([a2 fx2] & H2 & H). injection H as <- <-.
      apply early_goes in H2 as (H3 & H4 & H5 & _). by apply (pending_grow a).
    - destruct (on_gossip_aggregated_attestation E (ac_node a) sg) as [n'|e|]; [| |done]; injection H as <- <-;
        by apply (pending_grow a).
    - apply early_goes in H as (H3 & H4 & H5 & _). by apply (pending_grow a).
    - case_bool_decide; [|injection H as <- <-; done].
      apply rbind_Ok in H as (n' & H1 & H). injection H as <- <-. by apply (pending_grow a).
  Qed.

  Lemma run_pending a tr a' : reach (ac_node a) -> pending_ok a -> actor_run E C a tr a' ->
    reach (ac_node a') /\ pending_ok a'.
  Proof.
    intros Hr HP H. induction H as [|tr a1 W m a2 fx H IH HW Hs]; [done|]. destruct IH as [Hr1 HP1].
    by eapply step_pending.
  Qed.

  (** The wall clock fits the slots of the signature scheme. *)
  Lemma votes_ok W n data agg vs : acyclic_hash (e_header E) -> reach n -> clock_fits n ->
    exists n' fx, publish_votes E W n data agg vs = Ok (n', fx).
  Proof.
    intros Hac. revert n. induction vs as [|v vs IH]; intros n Hr Hcl; cbn [publish_votes]; [by eauto|].
    destruct (w_sign W v data) as [sig|]; [|by apply IH].
    assert (exists n1, (if agg then match on_gossip_attestation E n (mkSA v data sig) true with
              | Ok n1 => Ok n1 | Err _ => Ok n | Panic => Panic end else Ok n) = Ok n1 /\ reach n1 /\ clock_fits n1)
      as (n1 & -> & Hr1 & Hcl1).
    { destruct agg; [|by eauto].
      pose proof (C29_no_panic_pf E gt vals Hgood Hvals n (ev_attestation (mkSA v data sig) true) Hac Hr Hcl) as Hnp.
      cbn [node_step] in Hnp.
      destruct (on_gossip_attestation E n (mkSA v data sig) true) as [n1|e|] eqn:Ho; [|by eauto|done].
      exists n1. split; [done|]. split.
      - eapply reach_run; [exact Hr|]. apply run_one. instantiate (1 := ev_attestation (mkSA v data sig) true). cbn. by rewrite Ho.
      - destruct (reachable_inv E gt vals Hgood Hvals _ Hr) as (A & As & w & Hn & _).
        destruct (attestation_step E gt vals _ _ _ _ _ _ _ Hn Ho) as [_ Hd]. unfold clock_fits. by rewrite Hd. }
    cbn [rbind]. destruct (IH n1 Hr1 Hcl1) as (n2 & fx & ->). cbn [rbind fst snd]. eauto.
  Qed.
  Lemma session_ok W a slot : reach (ac_node a) -> exists a' fx, start_aggregation_session C W a slot = Ok (a', fx).
  Proof.
    intros Hr. unfold start_aggregation_session, get_our_proposer. destruct (head_state_ok _ Hr) as [s ->]. cbn [rbind].
    destruct (w_jobs _ _ _ _); eauto.
  Qed.
  Lemma early_ok W a : reach (ac_node a) -> exists a' fx, maybe_start_early_aggregation C W a = Ok (a', fx).
  Proof.
    intros Hr. unfold maybe_start_early_aggregation. destruct (negb _); [eauto|]. destruct (_ <? _); [eauto|].
    destruct (_ || _); [eauto|]. case_bool_decide; [eauto|]. destruct (head_state_ok _ Hr) as [s ->]. cbn [rbind].
    destruct (_ || _); [eauto|]. by apply session_ok.
  Qed.
  Lemma propose_ok W a slot v : acyclic_hash (e_header E) -> reach (ac_node a) -> clock_fits (ac_node a) ->
    exists a' fx, propose_block E W a slot v = Ok (a', fx).
  Proof.
    intros Hac Hr Hcl. unfold propose_block.
    pose proof (C29_no_panic_pf E gt vals Hgood Hvals _ (ev_propose slot) Hac Hr Hcl) as Hnp. cbn [node_step] in Hnp.
    destruct (get_proposal_head E (ac_node a) slot) as [[n1 h]|[]|] eqn:Hg; cbn [rbind] in Hnp |- *; [| |done].
    2:{ exfalso. unfold get_proposal_head in Hg. destruct (reachable_inv E gt vals Hgood Hvals _ Hr) as (A & As & w & Hn & _).
        destruct (on_tick_step E gt vals Hgood Hvals _ _ _ _ (db_gt (nd_db (ac_node a)) * 1000 + slot * MILLISECONDS_PER_SLOT) true Hn) as (n2 & Ht & Hs & _).
        rewrite Ht in Hg. cbn [rbind] in Hg.
        destruct (accept_step E gt vals Hgood Hvals _ _ _ _ (so_inv _ _ _ _ _ _ _ _ _ Hs)) as (n3 & Ha & _).
        rewrite Ha in Hg. done. }
    cbn [fst]. assert (reach n1) as Hr1.
    { eapply reach_run; [exact Hr|]. apply run_one. instantiate (1 := ev_propose slot). cbn. by rewrite Hg. }
    destruct (w_build W n1 slot v) as [sb|]; [|eauto].
    pose proof (import_no_panic W n1 sb Hr1). destruct (import_and_emit E W n1 sb) as [[n2 fx]|e|]; [eauto|eauto|done].
  Qed.
  Lemma interval_ok W a slot i : acyclic_hash (e_header E) -> reach (ac_node a) -> clock_fits (ac_node a) ->
    exists a' fx, interval_duty E C W a slot i = Ok (a', fx).
  Proof.
    intros Hac Hr Hcl. unfold interval_duty. destruct i; [eauto| | |eauto|].
    - destruct (duties_allowed C a); [|eauto]. unfold produce_attestations.
      destruct (C34_produced_pf E gt vals Hgood Hvals (ac_node a) slot Hr) as (data & hs & -> & _). cbn [rbind].
      destruct (votes_ok W (ac_node a) data (w_aggregator W) (cf_own C) Hac Hr Hcl) as (n' & fx & ->).
      cbn [rbind]. eauto.
    - destruct (_ && _); [|eauto]. by apply session_ok.
    - unfold get_our_proposer. destruct (head_state_ok _ Hr) as [s ->]. cbn [rbind].
      destruct (List.find _ _); [|eauto]. destruct (duties_allowed C a); [|eauto]. by apply propose_ok.
  Qed.
  Definition wall_fits (W : World) (n : Node) : Prop := (w_now W - db_gt (nd_db n) * 1000) / 800 + 1 < 5 * two32.
  Lemma tick_ok W a : acyclic_hash (e_header E) -> reach (ac_node a) -> clock_fits (ac_node a) -> wall_fits W (ac_node a) ->
    exists a' fx, actor_on_tick E C W a = Ok (a', fx).
  Proof.
    intros Hac Hr Hcl Hw. unfold actor_on_tick. destruct (_ && _); [eauto|].
    destruct (head_state_ok _ Hr) as [s Hs]. rewrite Hs. cbn [rbind]. destruct (s_validators s); [eauto|].
    unfold update_sync_status. destruct (slot_of_head_ok _ Hr) as [[hs ->] _]. cbn [rbind].
    set (a1 := mkActor _ _ _ _ _).
    assert (exists pr, (if ((w_now W - db_gt (nd_db (ac_node a)) * 1000) / MILLISECONDS_PER_INTERVAL) mod INTERVALS_PER_SLOT =? 0
       then if 0 <? (w_now W - db_gt (nd_db (ac_node a)) * 1000) / MILLISECONDS_PER_SLOT
            then let! p := get_our_proposer C a1 ((w_now W - db_gt (nd_db (ac_node a)) * 1000) / MILLISECONDS_PER_SLOT) in
                 Ok (match p with Some _ => true | None => false end)
            else Ok false else Ok false) = (Ok pr : res unit bool)) as [pr ->].
    { destruct (_ =? 0); [|eauto]. destruct (_ <? _); [|eauto]. unfold get_our_proposer. change (ac_node a1) with (ac_node a).
      rewrite Hs. cbn [rbind]. eauto. }
    cbn [rbind].
    destruct (reachable_inv E gt vals Hgood Hvals _ Hr) as (A & As & w & Hn & _).
    destruct (on_tick_step E gt vals Hgood Hvals _ _ _ _ (w_now W) pr Hn) as (n2 & Ht & _ & Htime).
    rewrite Ht. cbn [rbind].
    assert (reach n2) as Hr2.
    { eapply reach_run; [exact Hr|]. apply run_one. instantiate (1 := ev_tick (w_now W) pr). done. }
    assert (clock_fits n2) as Hcl2.
    { unfold clock_fits, wall_fits in *. rewrite Htime. lia. }
    destruct (interval_ok W (with_node a1 n2) ((w_now W - db_gt (nd_db (ac_node a)) * 1000) / MILLISECONDS_PER_SLOT)
      (interval_of ((w_now W - db_gt (nd_db (ac_node a)) * 1000) / MILLISECONDS_PER_INTERVAL)) Hac Hr2 Hcl2) as (a3 & fx3 & Hd).
    rewrite Hd. cbn [rbind fst snd]. apply interval_goes in Hd as (G & _).
    pose proof (reach_goes _ _ _ Hr2 G) as Hr3. destruct (slot_of_head_ok _ Hr3) as [[s1 H1] [s2 H2]].
    rewrite H2. cbn [rbind]. rewrite H1. cbn [rbind]. eauto.
  Qed.

  Lemma step_safe W a m :
    reach (ac_node a) -> pending_ok a -> world_ok W -> clock_fits (ac_node a) -> wall_fits W (ac_node a) ->
    (exists a' fx, actor_step E C W a m = Ok (a', fx)) \/
    actor_step E C W a m = Panic /\ exists sb g, m = m_block sb g /\
      has_state (tab (ac_node a)) (b_parent (sb_block sb)) = false /\ lost_above E (tab (ac_node a)) (b_parent (sb_block sb)).
  Proof.
    intros Hr HP HW Hcl Hwf. assert (acyclic_hash (e_header E)) as Hac by (by exists rank).
    destruct m as [|sb g|sa|sg| |id data p parts keys]; cbn [actor_step].
    - left. by apply tick_ok.
    - pose proof (on_block_ok W a sb Hr HP HW) as H. destruct (actor_on_block E C W a sb) as [[a' fx]|[]|]; cbn [rbind];
        [left; eauto|done|right]. split; [done|]. eauto.
    - left. pose proof (C29_no_panic_pf E gt vals Hgood Hvals _ (ev_attestation sa (w_aggregator W)) Hac Hr Hcl) as Hnp.
      cbn [node_step] in Hnp.
      destruct (on_gossip_attestation E (ac_node a) sa (w_aggregator W)) as [n1|e|] eqn:Ho; [| |done]; cbn [rbind fst snd].
      + assert (reach n1) as Hr1.
        { eapply reach_run; [exact Hr|]. apply run_one. instantiate (1 := ev_attestation sa (w_aggregator W)). cbn. by rewrite Ho. }
        destruct (_ =? _); [|eauto]. destruct (early_ok W (with_node a n1) Hr1) as (a2 & fx & ->). cbn [rbind]. eauto.
      + destruct (_ =? _); [|eauto]. destruct (early_ok W (with_node a (ac_node a)) Hr) as (a2 & fx & ->). cbn [rbind]. eauto.
    - left. pose proof (C29_no_panic_pf E gt vals Hgood Hvals _ (ev_aggregate sg) Hac Hr Hcl) as Hnp. cbn [node_step] in Hnp.
      destruct (on_gossip_aggregated_attestation E (ac_node a) sg) as [n1|e|]; [eauto|eauto|done].
    - left. by apply early_ok.
    - left. case_bool_decide; [|eauto]. unfold apply_aggregated_group.
      destruct (reachable_inv E gt vals Hgood Hvals _ Hr) as (A & As & w & Hn & _).
      destruct (payload_step E gt vals _ _ _ _ data p Hn) as (n1 & -> & Hs & _). cbn [rbind].
      pose proof (so_inv _ _ _ _ _ _ _ _ _ Hs) as (_ & _ & _ & M3').
      destruct (delete_spec (e_data E) (nd_gossip n1) keys M3') as (g & -> & _). cbn [rbind]. eauto.
  Qed.
End Safe.
