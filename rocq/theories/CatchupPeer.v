(** The blocks a node hands out with a state are the ones it verified (for C85). *)
From Verif Require Export CatchupProofs.

Section Peer.
  Context (E : Env) (gt : N) (vals : list Validator).
  Context (Hgood : good_hash (e_header E)) (Hvals : lenN vals <= VALIDATOR_REGISTRY_LIMIT)
    (Hacyc : acyclic_hash (e_header E)) (Hbody : forall l, e_body E l = e_body E [] -> l = []).
  Notation hb := (e_body E).
  Notation root_ := (block_root (e_header E) (e_body E)).
  Notation rt sb := (block_root (e_header E) (e_body E) (sb_block sb)).
  Notation reach := (reachable E gt vals).
  Notation node_inv := (node_inv E gt vals).

  Lemma check_passes d sb s : check_block E d sb = Ok (Some s) ->
    exists p, read_state (db_tab d) (b_parent (sb_block sb)) = Ok (Some p) /\ passes E p sb s.
  Proof using.
    unfold check_block. intros H. destruct (has_state _ _); [done|].
    destruct (read_state (db_tab d) (b_parent (sb_block sb))) as [[p|]|e|]; cbn [expect rbind] in H; try done.
    destruct (N.ltb_spec HISTORICAL_ROOTS_LIMIT (b_slot (sb_block sb) - s_slot p)); [done|].
    destruct (current_slot d + 1 <? _); [done|]. destruct (has_duplicate_data _) eqn:Hd; [done|].
    destruct (N.ltb_spec MAX_ATTESTATIONS_DATA (lenN (b_atts (sb_block sb)))); [done|].
    apply rbind_Ok in H as ([] & Hv & H).
    destruct (state_transition _ _ _ _ _) as [post|e|] eqn:Hst; [|done..]. injection H as <-.
    exists p. split; [done|]. split_and!; try done. by exists post.
  Qed.

  Definition verified (A : H256) (w : gmap H256 State) (t : Tables) : Prop :=
    forall r sb s, w !! r = Some s -> r <> A -> get_signed_block hb t r = Some sb ->
      exists p, w !! b_parent (sb_block sb) = Some p /\ passes E p sb s.

  Lemma verified_step A As w n e n' : node_inv A As w n -> verified A w (tab n) -> node_step E n e = Ok n' ->
    exists w', node_inv A As w' n' /\ verified A w' (tab n').
  Proof.
    intros Hn Hv Hs. destruct (node_step_detail E gt vals Hgood Hvals _ _ _ _ _ _ Hn Hs) as (w' & Hok & _ & Hd).
    exists w'. split; [apply Hok|]. pose proof (proj1 Hn) as Hi. pose proof (so_w _ _ _ _ _ _ _ _ _ Hok) as Hw.
    assert (w' = w -> same_rows (tab n) (tab n') -> verified A w' (tab n')) as Hsame.
    { intros -> Hrows r sb s H1 H2 H3. rewrite (rows_signed _ _ _ _ Hrows) in H3. by apply (Hv r). }
    destruct e as [sb|sb|ts hp|sa agg|sg|l keys|slot| |]; cbn in Hd; try (destruct Hd as [He Hrows]; by apply Hsame).
    - destruct Hd as [[-> ->]|(p & ps & Hnone & Hpar & Hst & Hon & -> & Hrows)]; [done|].
      intros r x s H1 H2 H3. rewrite (rows_signed _ _ _ _ Hrows) in H3. destruct (decide (r = rt sb)) as [->|Hne].
      + rewrite written_exact in H3 by apply Hbody. injection H3 as <-. rewrite lookup_insert in H1. injection H1 as <-.
        unfold on_block in Hon. apply rbind_Ok in Hon as (o & Hc & _).
        destruct (check_block_spec E gt vals _ _ _ _ _ _ Hi Hc) as [[_ [? ?]]|(p' & ps' & _ & Hpar' & Hst' & ->)]; [congruence|].
        destruct (check_passes _ _ _ Hc) as (q & Hq & Hpa). exists q.
        rewrite (w_read _ _ _ _ _ _ _ _ _ Hi Hpar') in Hq. injection Hq as <-.
        assert (p' = p) as -> by congruence. split; [by apply Hw|]. rewrite Hst in Hst'. by injection Hst' as <-.
      + rewrite lookup_insert_ne in H1 by done. rewrite written_other in H3 by done.
        destruct (Hv r x s H1 H2 H3) as (q & Hq & Hpa). exists q. split; [by apply Hw|done].
    - destruct Hd as (-> & _ & Htab). intros r x s H1 H2 H3.
      destruct Htab as [->|Htab]; [by apply (Hv r)|]. rewrite Htab in H3.
      destruct (decide (r = rt sb)) as [->|Hne]; [|rewrite written_other in H3 by done; by apply (Hv r)].
      cbn [node_step] in Hs. destruct (pends n (sb_block sb)) eqn:Hpe; [|injection Hs as <-; rewrite <- Htab in H3; by apply (Hv (rt sb))].
      exfalso. unfold pends in Hpe. apply andb_true_iff in Hpe as [_ Hpe]. apply negb_true_iff in Hpe.
      destruct (w_header _ _ _ _ _ _ _ _ _ Hi H1) as (Hh & _).
      pose proof (inv_hashed _ _ _ _ _ _ _ Hi _ _ Hh) as Hhash. apply (proj1 Hgood) in Hhash.
      destruct (di_link _ _ _ _ _ _ _ Hi _ _ H1 H2) as (q & _ & _ & Hq & _). rewrite Hhash in Hq. cbn [header_of h_parent] in Hq.
      rewrite (inv_state _ _ _ _ _ _ _ _ Hi) in Hpe. apply bool_decide_eq_false in Hpe. apply Hpe. by exists q.
    - destruct Hd as (-> & Hh & Hb & _ & _). intros r x s H1 H2 H3. apply (Hv r x s H1 H2).
      destruct (w_header _ _ _ _ _ _ _ _ _ Hi H1) as (Hhr & _).
      destruct (di_headers _ _ _ _ _ _ _ Hi _ _ Hhr) as [?|Hpos]; [done|].
      unfold get_signed_block in *. rewrite Hh, Hb in H3. unfold tab in *. rewrite Hhr in *.
      destruct (if _ =? _ then _ else _); [|done].
      destruct (N.eqb_spec (h_slot (s_header s)) 0); [lia|].
      destruct (t_proofs (db_tab (nd_db n')) !! _) as [pr|] eqn:Hpr; [|done].
      pose proof (prune_sub _ _ _ Hs _ _ Hpr) as Hpr0. unfold tab in Hpr0. by rewrite Hpr0.
  Qed.
  Lemma reach_verified n : reach n -> exists A As w, node_inv A As w n /\ verified A w (tab n).
  Proof.
    intros (a & n0 & es & Ha & Hst & Hr).
    destruct (started_facts E gt vals Hgood Hvals _ _ Ha Hst) as (Hn0 & _ & Hone & _).
    set (A := db_head (nd_db n0)) in *. set (w0 := {[A := _]}) in *.
    exists A, (s_slot a). induction Hr as [|es n1 e n2 Hr IH Hs].
    - exists w0. split; [done|]. intros r sb s Hw Hne. exfalso. unfold w0 in Hw. rewrite lookup_singleton_ne in Hw by done. done.
    - destruct IH as (w & Hn & Hk). by eapply verified_step.
  Qed.

  (** A chain the peer has imported is valid for a node with the same state below it. *)
  Lemma peer_valid p c bs s0 : reach p -> chained E bs ->
    (forall sb, sb ∈ bs -> get_signed_block hb (tab p) (rt sb) = Some sb /\ has_state (tab p) (rt sb) = true) ->
    (forall sb, head bs = Some sb ->
      read_state (tab p) (b_parent (sb_block sb)) = Ok (Some s0) /\ read_state (tab c) (b_parent (sb_block sb)) = Ok (Some s0)) ->
    exists post, valid_tree E c bs post /\ forall sb, sb ∈ bs -> read_state (tab p) (rt sb) = Ok (Some (post (rt sb))).
  Proof.
    intros Hr Hch Hin Hbase. destruct (reach_verified p Hr) as (A & As & w & Hn & Hv). pose proof (proj1 Hn) as Hi.
    pose proof Hacyc as (rank & Hrank).
    assert (forall r s, read_state (tab p) r = Ok (Some s) -> w !! r = Some s) as Hw.
    { intros r s Hs. unfold tab in Hs. destruct (w !! r) as [s'|] eqn:Hw.
      - rewrite (w_read _ _ _ _ _ _ _ _ _ Hi Hw) in Hs. congruence.
      - pose proof (w_read_none _ _ _ _ _ _ _ _ Hi Hw). congruence. }
    exists (fun r => default s0 (w !! r)).
    assert (forall sb, sb ∈ bs -> is_Some (w !! rt sb)) as Hsome.
    { intros sb Hsb. destruct (Hin _ Hsb) as [_ Hs]. rewrite (inv_state _ _ _ _ _ _ _ _ Hi) in Hs. by apply bool_decide_eq_true in Hs. }
    split.
    2:{ intros sb Hsb. destruct (Hsome _ Hsb) as [s Hs]. rewrite Hs. cbn [default]. exact (w_read _ _ _ _ _ _ _ _ _ Hi Hs). }
    intros sb Hsb. destruct (Hsome _ Hsb) as [s Hs]. rewrite Hs. cbn [default].
    pose proof Hsb as Hsb'. apply elem_of_list_lookup_1 in Hsb' as (i & Hl).
    assert (is_Some (w !! b_parent (sb_block sb)) /\
      ((w !! b_parent (sb_block sb) = Some s0 /\ read_state (tab c) (b_parent (sb_block sb)) = Ok (Some s0)) \/
       exists q, q ∈ bs /\ rt q = b_parent (sb_block sb))) as [Hpar Hor].
    { destruct i as [|i].
      - destruct (Hbase sb) as [H1 H2]; [by destruct bs|]. apply Hw in H1. split; [by eexists|]. by left.
      - destruct (bs !! i) as [q|] eqn:Hq.
        2:{ apply lookup_ge_None in Hq. apply lookup_lt_Some in Hl. lia. }
        pose proof (Hch _ _ _ Hq Hl) as He. assert (q ∈ bs) as Hqi by (by eapply elem_of_list_lookup_2).
        rewrite He. split; [by apply Hsome|]. right. by exists q. }
    assert (rt sb <> A) as HneA.
    { intros He. pose proof (inv_rank E gt vals Hgood Hvals rank Hrank _ _ _ _ _ Hr Hi Hpar) as Hle.
      pose proof (Hrank (header_of hb (sb_block sb))) as Hlt. cbn [header_of h_parent] in Hlt.
      unfold block_root in He. rewrite He in Hlt. lia. }
    destruct (Hin _ Hsb) as [Hg _]. destruct (Hv _ _ _ Hs HneA Hg) as (q & Hq & Hp).
    exists q. split; [done|]. destruct Hor as [[H1 H2]|(y & Hy & He)].
    - left. congruence.
    - right. exists y. rewrite Hq. done.
  Qed.
End Peer.

Lemma from_peer E C gt vals p a old tip Ws s0 :
  let root sb := block_root (e_header E) (e_body E) (sb_block sb) in
  let bs := old ++ [tip] in
  good_hash (e_header E) -> lenN vals <= VALIDATOR_REGISTRY_LIMIT -> acyclic_hash (e_header E) ->
  (forall l, e_body E l = e_body E [] -> l = []) ->
  actor_reachable E C gt vals a -> clock_fits (ac_node a) -> ac_pend a = ∅ -> reachable E gt vals p ->
  chained E bs ->
  (forall sb, sb ∈ bs -> get_signed_block (e_body E) (tab p) (root sb) = Some sb /\ has_state (tab p) (root sb) = true) ->
  (forall sb, head bs = Some sb ->
    read_state (tab p) (b_parent (sb_block sb)) = Ok (Some s0) /\
    read_state (tab (ac_node a)) (b_parent (sb_block sb)) = Ok (Some s0)) ->
  (forall sb, sb ∈ bs -> t_headers (tab (ac_node a)) !! root sb = None /\
    cp_slot (db_fin (nd_db (ac_node a))) < b_slot (sb_block sb) /\
    5 * b_slot (sb_block sb) <= db_time (nd_db (ac_node a)) + 1) ->
  (forall r s sb, read_state (tab (ac_node a)) r = Ok (Some s) -> sb ∈ bs -> cp_slot (s_finalized s) < b_slot (sb_block sb)) ->
  (length old < length Ws)%nat ->
  Forall (fun x => world_ok x.1 /\ wall_fits x.1 (ac_node a) /\ forall n s v, w_build x.1 n s v = None) Ws ->
  exists a', exchange E C p Ws a [tip] = Ok (a', reverse (map root old), []) /\
    (forall sb, sb ∈ bs -> exists s, read_state (tab p) (root sb) = Ok (Some s) /\ read_state (tab (ac_node a')) (root sb) = Ok (Some s)) /\
    ac_pend a' = ∅ /\ ac_par a' = ∅.
Proof.
  intros root bs H1 H2 H3 H4 Ha Hc He Hp Hch Hin Hbase Hnew Hold Hlen HW.
  destruct (peer_valid E gt vals H1 H2 H3 H4 p (ac_node a) bs s0 Hp Hch Hin Hbase) as (post & Hv & Hpost).
  destruct (catch_up E C gt vals H1 H2 H3 p a bs post H4 Ha Hc He Hch Hv) with (l := old) (x := tip) (Ws := Ws) as (a' & Hex & Hst & Hend); try done.
  - intros sb Hsb. destruct (Hbase _ Hsb) as [_ Hs].
    destruct (reachable_inv E gt vals H1 H2 _ (actor_reach_node E C gt vals a Ha)) as (A & As & w & [Hi _] & _).
    rewrite (inv_state _ _ _ _ _ _ _ _ Hi). apply bool_decide_eq_true. destruct (w !! b_parent (sb_block sb)) eqn:Hw; [by eexists|].
    pose proof (w_read_none _ _ _ _ _ _ _ _ Hi Hw). unfold tab in Hs. congruence.
  - intros sb Hsb. by apply Hin.
  - exists a'. split; [done|]. split; [|done]. intros sb Hsb. exists (post (root sb)). split; [by apply Hpost|by apply Hst].
Qed.
