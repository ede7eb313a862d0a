(** Actor proofs: every delivered valid block is imported (C41). Node part. *)
From Verif Require Export ActorRuns.

Section Rows.
  Context (E : Env) (gt : N) (vals : list Validator).
  Context (Hgood : good_hash (e_header E)) (Hvals : lenN vals <= VALIDATOR_REGISTRY_LIMIT).
  Notation hb := (e_body E).
  Notation root_ := (block_root (e_header E) (e_body E)).
  Notation reach := (reachable E gt vals).
  Notation node_inv := (node_inv E gt vals).
  Notation db_inv := (db_inv E gt vals).

  (** Bodies match the headers, but for the anchor's. *)
  Definition rows_ok (A : H256) (t : Tables) : Prop := forall r h body, r <> A -> t_headers t !! r = Some h ->
    (if h_body_root h =? EMPTY_BODY_ROOT hb then Some [] else t_bodies t !! r) = Some body -> hb body = h_body_root h.
  Lemma rows_same A t t' : t_headers t' = t_headers t -> t_bodies t' = t_bodies t -> rows_ok A t -> rows_ok A t'.
  Proof. intros H1 H2 H r h body. rewrite H1, H2. apply H. Qed.
  Lemma rows_write A t sb : rows_ok A t -> rows_ok A (write_signed_block hb t (root_ (sb_block sb)) sb).
  Proof.
    intros H r h body Hne Hh Hb. rewrite written_headers in Hh.
    destruct (decide (r = root_ (sb_block sb))) as [->|Hr].
    - rewrite lookup_insert in Hh. injection Hh as <-. cbn [header_of h_body_root] in *.
      destruct (N.eqb_spec (hb (b_atts (sb_block sb))) (EMPTY_BODY_ROOT hb)) as [He|He].
      { injection Hb as <-. by rewrite He. }
      unfold write_signed_block in Hb. cbn [header_of h_body_root] in Hb.
      rewrite (proj2 (N.eqb_neq _ _) He) in Hb. cbn in Hb. rewrite lookup_insert in Hb. by injection Hb as <-.
    - rewrite lookup_insert_ne in Hh by done. apply (H r h body Hne Hh).
      destruct (_ =? _) in Hb |- *; [done|]. unfold write_signed_block in Hb. destruct (_ =? _) in Hb; [done|].
      cbn in Hb. by rewrite lookup_insert_ne in Hb.
  Qed.
  Lemma rows_step A B As w n e n' : node_inv A As w n -> rows_ok B (tab n) -> node_step E n e = Ok n' -> rows_ok B (tab n').
  Proof.
    intros Hn Hk Hs. destruct (node_step_detail E gt vals Hgood Hvals _ _ _ _ _ _ Hn Hs) as (w' & Hst & _ & Hd).
    destruct e as [sb|sb|ts hp|sa agg|sg|l keys|slot| |]; cbn in Hd;
      try (destruct Hd as (-> & H1 & H2 & _); by eapply rows_same).
    - destruct Hd as [[-> ->]|(p & post & Hnone & Hpar & Hst' & Hon & -> & Hrows)]; [done|].
      destruct Hrows as (H1 & H2 & _). eapply rows_same; [done|done|]. by apply rows_write.
    - destruct Hd as (-> & _ & [->|Htab]); [done|]. rewrite Htab. by apply rows_write.
  Qed.
  Lemma reach_rows n : reach n -> exists A As w, node_inv A As w n /\ rows_ok A (tab n).
  Proof.
    intros (a & n0 & es & Ha & Hst & Hr).
    destruct (started_facts E gt vals Hgood Hvals _ _ Ha Hst) as (Hn0 & _ & Hone & _).
    set (A := db_head (nd_db n0)) in *. set (w0 := {[A := _]}) in *.
    exists A, (s_slot a). induction Hr as [|es n1 e n2 Hr IH Hs].
    - exists w0. split; [done|]. intros r h b Hne Hh. exfalso. by apply Hne, (Hone _ _ Hh).
    - destruct IH as (w & Hn & Hk). destruct (node_step_detail E gt vals Hgood Hvals _ _ _ _ _ _ Hn Hs) as (w' & Hok & _).
      exists w'. split; [apply Hok|]. by eapply rows_step.
  Qed.
  (** What is read under a root is the block of that root. *)
  Lemma signed_root A t r sb : rows_ok A t -> hashed (e_header E) t -> r <> A ->
    get_signed_block hb t r = Some sb -> root_ (sb_block sb) = r.
  Proof.
    intros Hk Hh Hne H. unfold get_signed_block in H. destruct (t_headers t !! r) as [h|] eqn:Hr; [|done].
    destruct (if _ =? _ then _ else _) as [body|] eqn:Hb; [|done].
    pose proof (Hk _ _ _ Hne Hr Hb) as Hbody. rewrite <- (Hh _ _ Hr).
    assert (sb_block sb = from_header_and_body h body) as ->.
    { destruct (t_proofs t !! _); [|destruct (_ =? _) in H; [|done]]; by apply (inj Some) in H as <-. }
    unfold block_root. f_equal. destruct h. unfold header_of, from_header_and_body. cbn in *. by rewrite Hbody.
  Qed.
  Lemma written_exact t sb : (hb (b_atts (sb_block sb)) = hb [] -> b_atts (sb_block sb) = []) ->
    get_signed_block hb (write_signed_block hb t (root_ (sb_block sb)) sb) (root_ (sb_block sb)) = Some sb.
  Proof.
    intros He. unfold get_signed_block. rewrite written_headers, lookup_insert. cbn [header_of h_body_root h_slot].
    unfold write_signed_block, EMPTY_BODY_ROOT in *. cbn [header_of h_body_root h_slot].
    destruct (N.eqb_spec (hb (b_atts (sb_block sb))) (hb [])) as [Heq|Hne]; cbn; rewrite !lookup_insert.
    - destruct sb as [[] pr]. cbn in *. by rewrite (He Heq).
    - by destruct sb as [[] pr].
  Qed.
End Rows.

Section Deliver.
  Context (E : Env) (gt : N) (vals : list Validator).
  Context (Hgood : good_hash (e_header E)) (Hvals : lenN vals <= VALIDATOR_REGISTRY_LIMIT).
  Context (rank : H256 -> N) (Hrank : forall h, rank (h_parent h) < rank (e_header E h)).
  Notation hb := (e_body E).
  Notation root_ := (block_root (e_header E) (e_body E)).
  Notation rt sb := (root_ (sb_block sb)).
  Notation reach := (reachable E gt vals).
  Notation node_inv := (node_inv E gt vals).
  Notation db_inv := (db_inv E gt vals).

  Lemma inv_reach A As w n : reach n -> db_inv A As w (nd_db n) -> node_inv A As w n.
  Proof.
    intros Hr Hi. destruct (reachable_inv E gt vals Hgood Hvals _ Hr) as (A' & As' & w' & [_ Hm] & _). by split.
  Qed.
  Lemma inv_state A As w n r : db_inv A As w (nd_db n) -> has_state (tab n) r = bool_decide (is_Some (w !! r)).
  Proof. intros Hi. unfold tab. apply (has_state_spec _ _ _ _ _ _ (di_st _ _ _ _ _ _ _ Hi)). Qed.
  Lemma inv_rank A As w n r : reach n -> db_inv A As w (nd_db n) -> is_Some (w !! r) -> rank A <= rank r.
  Proof.
    intros Hr Hi [s Hs]. destruct (di_path _ _ _ _ _ _ _ Hi _ _ Hs) as (l & Hl & _).
    pose proof (reach_ranked E gt vals Hgood Hvals n rank Hrank Hr) as Hrk.
    revert Hl. generalize r as q. clear -Hrk. intros q Hl.
    induction Hl as [|r h' l _ Hh _ IH]; [lia|]. pose proof (Hrk _ _ Hh). lia.
  Qed.
  Lemma root_rank sb : rank (b_parent (sb_block sb)) < rank (rt sb).
  Proof. apply (Hrank (header_of hb (sb_block sb))). Qed.

  Lemma anc_state A As w n n' x r : reach n -> db_inv A As w (nd_db n) -> grows (tab n) (tab n') ->
    ranked rank (tab n') -> strict_anc (tab n') x r -> is_Some (w !! r) -> is_Some (w !! x) \/ rank x < rank A.
  Proof.
    intros Hr Hi Hg Hrk' Hanc. pose proof (reach_ranked E gt vals Hgood Hvals n rank Hrank Hr) as Hrk.
    assert (forall c p, parent_of (tab n') c p -> is_Some (w !! c) -> is_Some (w !! p) \/ rank p < rank A) as Hp.
    { intros c p (h & Hh & <-) [s Hs]. destruct (w_header _ _ _ _ _ _ _ _ _ Hi Hs) as (Hhs & _).
      pose proof (Hg _ _ Hhs) as Hh'. rewrite Hh in Hh'. injection Hh' as ->. destruct (decide (c = A)) as [->|Hne].
      - right. by apply Hrk.
      - left. destruct (di_link _ _ _ _ _ _ _ Hi _ _ Hs Hne) as (q & _ & _ & Hq & _). by exists q. }
    induction Hanc as [c H|c p H Hanc IH]; intros Hc.
    - by apply (Hp c).
    - destruct (Hp _ _ H Hc) as [?|Hlt]; [by apply IH|]. right. pose proof (anc_rank _ _ _ _ Hrk' Hanc). lia.
  Qed.

  (** The blocks, the node at the beginning and the node at the end. *)
  Context (bs : list SignedBlock) (post : H256 -> State).
  Context (A : H256) (As : N) (w0 : gmap H256 State) (T : N) (fin0 : Checkpoint) (n0 nE : Node).
  Context (Hr0 : reach n0) (Hi0 : db_inv A As w0 (nd_db n0)).
  Context (Hempty : forall l, hb l = hb [] -> l = []).
  Context (Huniq : forall x y, x ∈ bs -> y ∈ bs -> rt x = rt y -> x = y).
  Context (Hvalid : forall sb, sb ∈ bs -> exists p, passes E p sb (post (rt sb)) /\
    (w0 !! b_parent (sb_block sb) = Some p \/
     exists q, q ∈ bs /\ rt q = b_parent (sb_block sb) /\ p = post (b_parent (sb_block sb)))).
  Context (Hslot : forall sb, sb ∈ bs -> cp_slot fin0 < b_slot (sb_block sb)).
  Context (Htime : forall sb, sb ∈ bs -> 5 * b_slot (sb_block sb) <= T + 1).
  Context (HrE : reach nE).
  Context (HfinE : forall sb r s, sb ∈ bs -> read_state (tab nE) r = Ok (Some s) ->
    b_slot (sb_block sb) <= cp_slot (s_finalized s) -> strict_anc (tab nE) (rt sb) r).

  Definition fut (n : Node) : Prop := exists es, node_run E n es nE.
  Definition among (sb : SignedBlock) : Prop := forall x, x ∈ bs -> rt sb = rt x -> sb = x.
  Definition clean (e : node_event) : Prop :=
    match e with ev_block sb | ev_pending sb => among sb | _ => True end.

  Record NJ (n : Node) (w : gmap H256 State) : Prop := {
    nj_reach : reach n;
    nj_inv : db_inv A As w (nd_db n);
    nj_w0 : forall r s, w0 !! r = Some s -> w !! r = Some s;
    nj_time : T <= db_time (nd_db n);
    nj_fin : db_fin (nd_db n) = fin0 \/ exists r s, w !! r = Some s /\ db_fin (nd_db n) = s_finalized s;
    nj_post : forall sb s, sb ∈ bs -> w !! rt sb = Some s -> s = post (rt sb);
    nj_rows : rows_ok E A (tab n);
    nj_read : forall sb, sb ∈ bs -> is_Some (t_headers (tab n) !! rt sb) -> w !! rt sb = None ->
      get_signed_block hb (tab n) (rt sb) = Some sb;
    nj_read2 : forall sb x, sb ∈ bs -> get_signed_block hb (tab n) (rt sb) = Some x -> x = sb }.

  Lemma bs_rank sb : sb ∈ bs -> rank A < rank (rt sb).
  Proof.
    remember (N.to_nat (rank (rt sb))) as k eqn:Hk. revert sb Hk.
    induction k as [k IH] using lt_wf_ind. intros sb Hk Hsb. pose proof (root_rank sb).
    destruct (Hvalid sb Hsb) as (p & _ & [Hp|(q & Hq & Hpar & _)]).
    - pose proof (inv_rank _ _ _ _ (b_parent (sb_block sb)) Hr0 Hi0 ltac:(by exists p)). lia.
    - rewrite <- Hpar in *. specialize (IH (N.to_nat (rank (rt q))) ltac:(lia) q eq_refl Hq). lia.
  Qed.

  Lemma nj_notlate n w sb : NJ n w -> fut n -> sb ∈ bs -> w !! rt sb = None ->
    cp_slot (db_fin (nd_db n)) < b_slot (sb_block sb).
  Proof.
    intros HN [es Hrun] Hsb Hnone. apply N.nle_gt. intros Hle. pose proof (nj_reach _ _ HN) as Hr.
    destruct (nj_fin _ _ HN) as [Hf|(r & s & Hw & Hf)]; rewrite Hf in Hle.
    { specialize (Hslot _ Hsb). lia. }
    pose proof (nj_inv _ _ HN) as Hi.
    destruct (run_inv E gt vals Hgood Hvals _ _ _ _ _ _ (inv_reach _ _ _ _ Hr Hi) Hrun) as (wE & Hok).
    pose proof (proj1 (so_inv _ _ _ _ _ _ _ _ _ Hok)) as HiE.
    pose proof (w_read _ _ _ _ _ _ _ _ _ HiE (so_w _ _ _ _ _ _ _ _ _ Hok _ _ Hw)) as Hread.
    pose proof (HfinE _ _ _ Hsb Hread Hle) as Hanc.
    pose proof (reach_ranked E gt vals Hgood Hvals nE rank Hrank HrE) as HrkE.
    destruct (anc_state A As w n nE _ _ Hr Hi (so_headers _ _ _ _ _ _ _ _ _ Hok) HrkE Hanc ltac:(by exists s)) as [Hs|Hlt].
    - rewrite Hnone in Hs. by destruct Hs.
    - pose proof (bs_rank sb Hsb). lia.
  Qed.

  Lemma stored_header n w sb h : NJ n w -> t_headers (tab n) !! rt sb = Some h -> h = header_of hb (sb_block sb).
  Proof.
    intros HN Hh. pose proof (inv_hashed _ _ _ _ _ _ _ (nj_inv _ _ HN) _ _ Hh) as Hhash.
    by apply (proj1 Hgood) in Hhash.
  Qed.

  Lemma nj_db n n' w : NJ n w -> reach n' -> nd_db n' = nd_db n -> NJ n' w.
  Proof. intros [] Hr Hd. split; unfold tab in *; rewrite ?Hd; done. Qed.

  Lemma nj_write n n' w w' sb : NJ n w -> reach n' -> db_inv A As w' (nd_db n') ->
    (forall r s, w !! r = Some s -> w' !! r = Some s) ->
    (forall r s, w' !! r = Some s -> w !! r = Some s \/ r = rt sb) ->
    (forall x s, x ∈ bs -> w' !! rt x = Some s -> s = post (rt x)) ->
    db_time (nd_db n) <= db_time (nd_db n') ->
    (db_fin (nd_db n') = fin0 \/ exists r s, w' !! r = Some s /\ db_fin (nd_db n') = s_finalized s) ->
    among sb -> same_rows (write_signed_block hb (tab n) (rt sb) sb) (tab n') -> NJ n' w'.
  Proof.
    intros HN Hr' Hi' Hw Hw' Hpost Ht Hf Ham Hrows. pose proof Hrows as (R1 & R2 & R3). split; try done.
    - intros r s Hs. apply Hw. by apply (nj_w0 _ _ HN).
    - pose proof (nj_time _ _ HN). lia.
    - eapply rows_same; [exact R1|exact R2|]. apply rows_write, HN.
    - intros x Hx Hh Hnone. rewrite (rows_signed _ _ _ _ Hrows). rewrite R1, written_headers in Hh.
      destruct (decide (rt x = rt sb)) as [Heq|Hne].
      + rewrite Heq. rewrite <- (Ham x Hx (eq_sym Heq)). apply written_exact. apply Hempty.
      + rewrite written_other by done. rewrite lookup_insert_ne in Hh by done.
        apply (nj_read _ _ HN); [done|done|]. destruct (w !! rt x) as [s|] eqn:Hs; [|done]. apply Hw in Hs. congruence.
    - intros x y Hx. rewrite (rows_signed _ _ _ _ Hrows).
      destruct (decide (rt x = rt sb)) as [Heq|Hne].
      + rewrite Heq, written_exact by apply Hempty. intros [= <-]. apply Ham; [done|]. congruence.
      + rewrite written_other by done. by apply (nj_read2 _ _ HN).
  Qed.

  Lemma nj_rows_same n n' w : NJ n w -> reach n' -> db_inv A As w (nd_db n') ->
    db_time (nd_db n) <= db_time (nd_db n') ->
    (db_fin (nd_db n') = fin0 \/ exists r s, w !! r = Some s /\ db_fin (nd_db n') = s_finalized s) ->
    same_rows (tab n) (tab n') -> NJ n' w.
  Proof.
    intros HN Hr' Hi' Ht Hf Hrows. pose proof Hrows as (R1 & R2 & R3). destruct HN. split; try done.
    - lia.
    - eapply rows_same; done.
    - intros x Hx Hh. rewrite R1 in Hh. rewrite (rows_signed _ _ _ _ Hrows). by apply nj_read0.
    - intros x y Hx. rewrite (rows_signed _ _ _ _ Hrows). by apply nj_read3.
  Qed.

  Lemma prune_sub n n' : node_step E n ev_prune = Ok n' ->
    forall k p, t_proofs (tab n') !! k = Some p -> t_proofs (tab n) !! k = Some p.
  Proof.
    cbn. intros H. apply rbind_Ok in H as (d & Hd & H). injection H as <-. unfold prune_old_data in Hd.
    destruct (get_header _ _); [|done]. injection Hd as <-. unfold tab. cbn [nd_db with_db db_tab with_tab].
    unfold prune_old_block_proofs. destruct (_ || _); [done|]. cbn. intros k p Hk. by apply map_filter_lookup_Some in Hk as [? _].
  Qed.

  Lemma nj_step n w e n' : NJ n w -> fut n -> clean e -> node_step E n e = Ok n' ->
    exists w', NJ n' w' /\ step_ok E gt vals A As w w' n n' /\ detail E w w' n n' e.
  Proof.
    intros HN Hfut Hcl Hs. pose proof (nj_reach _ _ HN) as Hr. pose proof (nj_inv _ _ HN) as Hi.
    destruct (node_step_detail E gt vals Hgood Hvals _ _ _ _ _ _ (inv_reach _ _ _ _ Hr Hi) Hs) as (w' & Hok & Hd).
    exists w'. split; [|done].
    assert (reach n') as Hr' by (eapply (reach_run E gt vals); [exact Hr|by apply run_one]).
    pose proof (proj1 (so_inv _ _ _ _ _ _ _ _ _ Hok)) as Hi'. pose proof (so_time _ _ _ _ _ _ _ _ _ Hok) as Ht.
    pose proof (so_w _ _ _ _ _ _ _ _ _ Hok) as Hw.
    destruct Hd as [Hff Hd].
    assert (db_fin (nd_db n') = fin0 \/ exists r s, w' !! r = Some s /\ db_fin (nd_db n') = s_finalized s) as Hf.
    { destruct Hff as [Hff|?]; [|by right]. rewrite Hff. destruct (nj_fin _ _ HN) as [?|(r & s & H1 & H2)]; [by left|].
      right. exists r, s. split; [by apply Hw|done]. }
    destruct e as [sb|sb|ts hp|sa agg|sg|l keys|slot| |]; cbn in Hd, Hcl;
      try (destruct Hd as [-> Hrows]; by eapply nj_rows_same).
    - destruct Hd as [[-> ->]|(p & ps & Hnone & Hpar & Hst & Hon & -> & Hrows)]; [done|].
      eapply (nj_write n n' w _ sb); try done.
      + intros r s Hrs. destruct (decide (r = rt sb)) as [->|Hne]; [by right|]. rewrite lookup_insert_ne in Hrs by done. by left.
      + intros x s Hx Hs'. destruct (decide (rt x = rt sb)) as [Heq|Hne].
        * pose proof (Hcl x Hx (eq_sym Heq)) as ->. rewrite lookup_insert in Hs'. injection Hs' as <-.
          destruct (Hvalid _ Hx) as (p' & (_ & _ & _ & _ & ps' & Hst' & ->) & Hp').
          assert (p' = p) as ->.
          { destruct Hp' as [Hp'|(q & Hq & Hpq & ->)]; [apply (nj_w0 _ _ HN) in Hp'; congruence|].
            rewrite <- Hpq in *. symmetry. by apply (nj_post _ _ HN q). }
          rewrite Hst in Hst'. by injection Hst' as <-.
        * rewrite lookup_insert_ne in Hs' by done. by apply (nj_post _ _ HN).
    - destruct Hd as (-> & Hfn & [->|Htab]); [done|]. eapply (nj_write n n' w w sb); try done.
      + intros r s Hrs. by left.
      + apply HN.
      + by rewrite Htab.
    - destruct Hd as (-> & Hh & Hb & Hfn & Hp). pose proof HN as [? ? ? ? ? ? ? Hrd Hrd2]. split; try done.
      + lia.
      + by eapply rows_same.
      + intros x Hx Hhx Hnone. rewrite Hh in Hhx. specialize (Hrd x Hx Hhx Hnone). destruct Hhx as [h Hhx].
        pose proof (stored_header _ _ _ _ HN Hhx) as ->.
        unfold get_signed_block in *. rewrite Hh, Hb, Hhx in *. destruct (if _ =? _ then _ else _); [|done].
        cbn [header_of h_slot] in *. pose proof (nj_notlate _ _ _ HN Hfut Hx Hnone) as Hlate.
        destruct (t_proofs (tab n) !! (b_slot (sb_block x), rt x)) as [pr|] eqn:Hpr.
        * destruct (Hp _ _ Hpr) as [->|[Hlt _]]; [done|]. cbn in Hlt. lia.
        * destruct (N.eqb_spec (b_slot (sb_block x)) 0); [lia|done].
      + intros x y Hx Hy. specialize (Hrd2 x). unfold get_signed_block in Hy, Hrd2. rewrite Hh, Hb in Hy.
        destruct (t_headers (tab n) !! rt x) as [h|] eqn:Hhx; [|done].
        pose proof (stored_header _ _ _ _ HN Hhx) as ->. destruct (if _ =? _ then _ else _); [|done].
        cbn [header_of h_slot] in *. specialize (Hslot _ Hx).
        destruct (N.eqb_spec (b_slot (sb_block x)) 0); [lia|].
        destruct (t_proofs (tab n') !! (b_slot (sb_block x), rt x)) as [pr|] eqn:Hpr; [|done].
        rewrite (prune_sub _ _ Hs _ _ Hpr) in Hrd2. by apply Hrd2.
  Qed.

  (** *** The actor *)
  Context (C : Config).
  Record AJ (a : Actor) (q : list SignedBlock) (w : gmap H256 State) : Prop := {
    aj_n : NJ (ac_node a) w;
    aj_p : pending_ok a;
    aj_wait : forall sb, sb ∈ bs -> is_Some (t_headers (tab (ac_node a)) !! rt sb) -> w !! rt sb = None ->
      (exists cs, ac_pend a !! b_parent (sb_block sb) = Some cs /\ rt sb ∈ cs) \/ sb ∈ q;
    aj_par : forall sb p cs, sb ∈ bs -> ac_pend a !! p = Some cs -> rt sb ∈ cs -> w !! p = None;
    aj_q : forall x, x ∈ q -> among x }.

  Lemma in_among x y : x ∈ bs -> among y -> rt y = rt x -> y = x.
  Proof. intros Hx Ha. by apply Ha. Qed.
  Lemma bs_among x : x ∈ bs -> among x.
  Proof. intros Hx y Hy. by apply Huniq. Qed.
  Lemma waits_parent a q w sb p cs : AJ a q w -> ac_pend a !! p = Some cs -> rt sb ∈ cs -> p = b_parent (sb_block sb).
  Proof.
    intros HJ Hp Hc. destruct (po_parent _ (aj_p _ _ _ HJ) _ _ _ Hp Hc) as (h & Hh & <-).
    by rewrite (stored_header _ _ _ _ (aj_n _ _ _ HJ) Hh).
  Qed.
  Lemma parent_bs a q w sb : AJ a q w -> sb ∈ bs -> w !! b_parent (sb_block sb) = None ->
    exists y, y ∈ bs /\ rt y = b_parent (sb_block sb).
  Proof.
    intros HJ Hsb Hnone. destruct (Hvalid _ Hsb) as (p & _ & [Hp|(y & Hy & Hpar & _)]); [|by exists y].
    apply (nj_w0 _ _ (aj_n _ _ _ HJ)) in Hp. congruence.
  Qed.
  Lemma under_bs a q w r c : AJ a q w -> under (ac_pend a) r c -> forall sb, sb ∈ bs -> c = rt sb ->
    exists y, y ∈ bs /\ rt y = r /\ w !! r = None.
  Proof.
    intros HJ Hu. induction Hu as [cs c H1 H2|x cs c Hx IH H1 H2]; intros sb Hsb ->.
    - pose proof (aj_par _ _ _ HJ _ _ _ Hsb H1 H2) as Hn. pose proof (waits_parent _ _ _ _ _ _ HJ H1 H2) as ->.
      destruct (parent_bs _ _ _ _ HJ Hsb Hn) as (y & Hy & Hr). eauto.
    - pose proof (aj_par _ _ _ HJ _ _ _ Hsb H1 H2) as Hn. pose proof (waits_parent _ _ _ _ _ _ HJ H1 H2) as ->.
      destruct (parent_bs _ _ _ _ HJ Hsb Hn) as (y & Hy & Hr). by apply (IH y Hy).
  Qed.

  (** Discarding keeps the blocks of the set. *)
  Lemma discard_aj W a x q w a' : AJ a (x :: q) w -> world_ok W ->
    discard_pending_subtree W a (rt x) = Ok a' ->
    (x ∈ bs -> is_Some (w !! rt x)) -> AJ a' q w.
  Proof.
    intros HJ HW Hd Hst. pose proof (aj_n _ _ _ HJ) as HN. pose proof (nj_reach _ _ HN) as Hr.
    pose proof (reach_ranked E gt vals Hgood Hvals _ rank Hrank Hr) as Hrk.
    destruct (discard_ok rank W a (rt x) HW (aj_p _ _ _ HJ) Hrk) as (a1 & Hd1 & HP1 & (Hn1 & _) & Hp1 & Hq1).
    rewrite Hd in Hd1. injection Hd1 as <-.
    assert (forall sb, sb ∈ bs -> ~ under (ac_pend a) (rt x) (rt sb)) as Hno.
    { intros sb Hsb Hu. destruct (under_bs _ _ _ _ _ HJ Hu sb Hsb eq_refl) as (y & Hy & Hry & Hnone).
      assert (x = y) as -> by (apply (aj_q _ _ _ HJ x); [left|done|done]).
      destruct (Hst Hy) as [? ?]. congruence. }
    split.
    - by rewrite Hn1.
    - done.
    - intros sb Hsb Hh Hnone. rewrite Hn1 in Hh. destruct (aj_wait _ _ _ HJ _ Hsb Hh Hnone) as [(cs & H1 & H2)|Hin].
      + left. exists cs. split; [|done]. apply Hp1. split_and!; [done| |].
        * intros Heq. apply (Hno sb Hsb). rewrite Heq in H1. by eapply un_one.
        * intros Hu. apply (Hno sb Hsb). by eapply un_more.
      + apply elem_of_cons in Hin as [->|Hin]; [|by right]. destruct (Hst Hsb) as [? ?]. congruence.
    - intros sb p cs Hsb H1 H2. apply Hp1 in H1 as (H1 & _). by eapply (aj_par _ _ _ HJ).
    - intros y Hy. apply (aj_q _ _ _ HJ). by right.
  Qed.

  (** Reading a waiting or stored block gives a block of the set only for its root. *)
  Lemma read_among n w r y : NJ n w -> r <> A -> get_signed_block hb (tab n) r = Some y -> among y.
  Proof.
    intros HN Hne Hy x Hx Heq.
    pose proof (signed_root E A _ _ _ (nj_rows _ _ HN) (inv_hashed _ _ _ _ _ _ _ (nj_inv _ _ HN)) Hne Hy) as Hr.
    rewrite <- Hr, Heq in Hy. by apply (nj_read2 _ _ HN).
  Qed.
  Lemma child_not_anchor n w c p : NJ n w -> parent_of (tab n) c p -> is_Some (w !! p) -> c <> A.
  Proof.
    intros HN (h & Hh & <-) Hp ->. pose proof (nj_reach _ _ HN) as Hr.
    pose proof (reach_ranked E gt vals Hgood Hvals _ rank Hrank Hr _ _ Hh).
    pose proof (inv_rank _ _ _ _ _ Hr (nj_inv _ _ HN) Hp). lia.
  Qed.

  (** A valid block on a known state is imported. *)
  Lemma import_valid n w sb : NJ n w -> sb ∈ bs -> is_Some (w !! b_parent (sb_block sb)) ->
    exists o, check_block E (nd_db n) sb = Ok o.
  Proof.
    intros HN Hsb [p Hp]. unfold check_block. destruct (has_state _ (rt sb)); [by eexists|].
    rewrite (w_read _ _ _ _ _ _ _ _ _ (nj_inv _ _ HN) Hp). cbn [expect rbind].
    destruct (Hvalid _ Hsb) as (p' & (H1 & H2 & H3 & H4 & ps & H5 & _) & Hp').
    assert (p' = p) as ->.
    { destruct Hp' as [Hp'|(q & Hq & Hpq & ->)]; [apply (nj_w0 _ _ HN) in Hp'; congruence|].
      rewrite <- Hpq in *. symmetry. by apply (nj_post _ _ HN q). }
    rewrite (proj2 (N.ltb_ge _ _)) by done. specialize (Htime _ Hsb). pose proof (nj_time _ _ HN) as Ht.
    destruct (N.ltb_spec (current_slot (nd_db n) + 1) (b_slot (sb_block sb))) as [Hlt|_].
    { exfalso. unfold current_slot in Hlt. change INTERVALS_PER_SLOT with 5 in Hlt.
      pose proof (N.div_mod (db_time (nd_db n)) 5 ltac:(lia)). pose proof (N.mod_upper_bound (db_time (nd_db n)) 5 ltac:(lia)). lia. }
    rewrite H2. rewrite (proj2 (N.ltb_ge _ _)) by done. rewrite H4. cbn [rbind]. rewrite H5. by eexists.
  Qed.
  Lemma import_not_err W n w sb e : NJ n w -> sb ∈ bs -> is_Some (w !! b_parent (sb_block sb)) ->
    import_and_emit E W n sb <> Err e.
  Proof.
    intros HN Hsb Hp Hi. destruct (import_valid _ _ _ HN Hsb Hp) as (o & Hc). unfold import_and_emit in Hi.
    assert (forall e, on_block E n sb <> Err e) as Hon.
    { intros e'. unfold on_block. rewrite Hc. cbn [rbind]. destruct o as [ps|]; [|done].
      destruct (import_justified (nd_db n) ps) as [d1|[]|]; cbn [expect rbind]; try done.
      destruct (import_state E (import_block E d1 sb) sb ps) as [d3|[]|]; cbn [expect rbind]; try done.
      destruct (update_head _) as [?|[]|]; done. }
    destruct (on_block E n sb) as [n'|e'|] eqn:Ho; [|by destruct (Hon e')|done].
    cbn [rbind] in Hi. destruct (slot_of_root _ _) as [?|[]|]; done.
  Qed.

  Lemma fut_goes n fx n' : goes E n fx n' -> fut n' -> fut n.
  Proof. intros (tr & Ht & _) [es H]. apply traced_run in Ht. eexists. by eapply run_app. Qed.

  Lemma pop_aj W a x q w a' q1 fx : AJ a (x :: q) w -> world_ok W ->
    process_or_pend_block E C W a x = Ok (a', q1, fx) -> fut (ac_node a') ->
    exists w', AJ a' (q ++ q1) w' /\ (forall y, y ∈ bs -> is_Some (t_headers (tab (ac_node a)) !! rt y) \/ y = x ->
      is_Some (t_headers (tab (ac_node a')) !! rt y)).
  Proof.
    intros HJ HW Hpop Hfut'. pose proof (aj_n _ _ _ HJ) as HN. pose proof (nj_reach _ _ HN) as Hr.
    pose proof (pop_goes E C _ _ _ _ _ _ Hpop) as (Hgoes & _). pose proof (fut_goes _ _ _ Hgoes Hfut') as Hfut.
    pose proof (nj_inv _ _ HN) as Hi.
    assert (forall r s, w !! r = Some s -> is_Some (t_headers (tab (ac_node a)) !! r)) as Hwh.
    { intros r s Hs. destruct (w_header _ _ _ _ _ _ _ _ _ Hi Hs) as (Hh & _). by eexists. }
    destruct (goes_mono E gt vals Hgood Hvals _ _ _ Hr Hgoes) as [Hgrow _].
    pose proof (aj_q _ _ _ HJ x ltac:(left)) as Ham.
    pose proof (pop_ok E C gt vals Hgood Hvals rank Hrank W a x Hr (aj_p _ _ _ HJ) HW) as Hok. rewrite Hpop in Hok.
    destruct Hok as (Hr' & HP' & _).
    assert (forall y, is_Some (t_headers (tab (ac_node a)) !! rt y) -> is_Some (t_headers (tab (ac_node a')) !! rt y)) as Hgr
      by (intros y [h Hh]; eexists; by apply Hgrow).
    unfold process_or_pend_block in Hpop.
    destruct (N.leb_spec (b_slot (sb_block x)) (cp_slot (db_fin (nd_db (ac_node a))))) as [Hle|Hgt].
    { apply rbind_Ok in Hpop as (a1 & Hd & Hpop). injection Hpop as <- <- <-. rewrite app_nil_r. exists w.
      assert (x ∈ bs -> is_Some (w !! rt x)) as Hst.
      { intros Hx. destruct (w !! rt x) eqn:Hnone; [by eexists|].
        pose proof (nj_notlate _ _ _ HN Hfut Hx Hnone). lia. }
      split; [by eapply discard_aj|]. intros y Hy [Hh| ->]; [by apply Hgr|]. apply Hgr.
      destruct (Hst Hy) as [s Hs]. by eapply Hwh. }
    destruct (N.ltb_spec (db_time (nd_db (ac_node a)) + GOSSIP_DISPARITY_INTERVALS)
                         (saturating_mul (b_slot (sb_block x)) INTERVALS_PER_SLOT)) as [Hf|Hf].
    { assert (x ∉ bs) as Hx.
      { intros Hx. specialize (Htime _ Hx). pose proof (nj_time _ _ HN). revert Hf. unfold saturating_mul.
        change GOSSIP_DISPARITY_INTERVALS with 1. change INTERVALS_PER_SLOT with 5. lia. }
      apply rbind_Ok in Hpop as (a1 & Hd & Hpop). injection Hpop as <- <- <-. rewrite app_nil_r. exists w.
      split; [by eapply discard_aj|]. intros y Hy [Hh| ->]; [by apply Hgr|done]. }
    rewrite (inv_state _ _ _ _ _ Hi) in Hpop.
    destruct (w !! b_parent (sb_block x)) as [ps|] eqn:Hps.
    - rewrite bool_decide_eq_true_2 in Hpop by (by eexists). cbn [negb] in Hpop.
      destruct (import_and_emit E W (ac_node a) x) as [[n' fx1]|e|] eqn:Him; [| |done].
      2:{ injection Hpop as <- <- <-. rewrite app_nil_r. exists w.
          assert (x ∉ bs) as Hx by (intros Hx; by apply (import_not_err W _ _ _ e HN Hx) in Him; [|eexists]).
          split; [|intros y Hy [Hh| ->]; [by apply Hgr|done]]. destruct HJ as [J1 J2 J3 J4 J5]. split; try done.
          - intros sb Hsb Hh Hn. destruct (J3 _ Hsb Hh Hn) as [?|Hin]; [by left|]. apply elem_of_cons in Hin as [->|?]; [done|by right].
          - intros y Hy. apply J5. by right. }
      apply rbind_Ok in Hpop as ([a1 fx2] & Hre & Hpop). cbn [fst snd] in Hpop.
      assert (on_block E (ac_node a) x = Ok n') as Hon.
      { unfold import_and_emit in Him. apply rbind_Ok in Him as (n1 & H1 & Him).
        apply rbind_Ok in Him as (? & _ & Him). by injection Him as <- _. }
      pose proof (import_has_state E gt vals Hgood Hvals _ _ _ Hr Hon) as Hhs.
      apply reagg_goes in Hre as (G2 & Ha1 & Hdb). cbn [ac_node with_node] in G2, Hdb.
      assert (ac_node a' = ac_node a1) as Hna.
      { unfold collect_pending_children in Hpop. destruct (ac_pend a1 !! rt x); injection Hpop as <- _ _; done. }
      rewrite Hna in *.
      assert (node_step E (ac_node a) (ev_block x) = Ok n') as Hstep by (cbn; by rewrite Hon).
      destruct (nj_step _ _ (ev_block x) n' HN Hfut Ham Hstep) as (w' & HN' & Hok & Hdet).
      assert (forall r, r <> rt x -> w' !! r = w !! r) as Hww.
      { intros r Hne. destruct Hdet as [_ Hdet]. cbn in Hdet.
        destruct Hdet as [[-> _]|(? & ? & _ & _ & _ & _ & -> & _)]; [done|]. by rewrite lookup_insert_ne. }
      assert (is_Some (w' !! rt x)) as [sx Hsx].
      { rewrite (inv_state _ _ _ _ _ (nj_inv _ _ HN')) in Hhs. by apply bool_decide_eq_true in Hhs. }
      assert (NJ (ac_node a1) w') as HN1.
      { apply (nj_db n'); [done| |done]. done. }
      assert (forall r, r <> rt x -> t_headers (tab n') !! r = t_headers (tab (ac_node a)) !! r) as Hhh.
      { intros r Hne. destruct Hdet as [_ Hdet]. cbn in Hdet.
        destruct Hdet as [[_ ->]|(? & ? & _ & _ & _ & _ & _ & Hrows)]; [done|]. destruct Hrows as (-> & _).
        rewrite written_headers. by rewrite lookup_insert_ne. }
      assert (tab (ac_node a1) = tab n') as Htab1 by (unfold tab; by rewrite Hdb).
      assert (ac_pend a1 = ac_pend a /\ ac_par a1 = ac_par a) as [Hpe Hpa] by (by rewrite Ha1).
      exists w'. split.
      2:{ intros y Hy [Hh| ->]; [by apply Hgr|]. rewrite Htab1.
          destruct (w_header _ _ _ _ _ _ _ _ _ (nj_inv _ _ HN') Hsx) as (Hh & _). by eexists. }
      assert (forall sb, sb ∈ bs -> is_Some (t_headers (tab n') !! rt sb) -> w' !! rt sb = None ->
        rt sb <> rt x /\ is_Some (t_headers (tab (ac_node a)) !! rt sb) /\ w !! rt sb = None) as Hold.
      { intros sb Hsb Hh Hn. assert (rt sb <> rt x) as Hne by (intros Heq; rewrite Heq in Hn; congruence).
        rewrite Hhh in Hh by done. rewrite Hww in Hn by done. done. }
      unfold collect_pending_children in Hpop. rewrite Hpe in Hpop.
      destruct (ac_pend a !! rt x) as [cs|] eqn:Hcs; cbn [fst snd] in Hpop; injection Hpop as <- <- <-.
      + split; cbn [ac_node with_maps ac_pend].
        * done.
        * exact HP'.
        * intros sb Hsb Hh Hn. rewrite Htab1 in Hh. destruct (Hold _ Hsb Hh Hn) as (Hne & Hh0 & Hn0).
          destruct (aj_wait _ _ _ HJ _ Hsb Hh0 Hn0) as [(cs' & H1 & H2)|Hin].
          -- destruct (decide (b_parent (sb_block sb) = rt x)) as [Heq|Hneq].
             ++ right. apply elem_of_app. right. apply elem_of_list_omap. exists (rt sb).
                rewrite Heq, Hcs in H1. injection H1 as <-. split; [by rewrite (HW cs), elem_of_elements|].
                apply (nj_read _ _ HN1); [done| |done]. by rewrite Htab1.
             ++ left. exists cs'. split; [|done]. by rewrite lookup_delete_ne.
          -- right. apply elem_of_app. left. apply elem_of_cons in Hin as [->|?]; done.
        * intros sb p cs' Hsb H1 H2. apply lookup_delete_Some in H1 as [Hne H1]. rewrite Hww by done.
          by eapply (aj_par _ _ _ HJ).
        * intros y Hy. apply elem_of_app in Hy as [Hy|Hy]; [apply (aj_q _ _ _ HJ); by right|].
          apply elem_of_list_omap in Hy as (c & Hc & Hg). rewrite (HW cs), elem_of_elements in Hc.
          eapply read_among; [exact HN1| |exact Hg].
          eapply child_not_anchor; [exact HN1| |by exists sx]. rewrite Htab1.
          destruct (po_parent _ (aj_p _ _ _ HJ) _ _ _ Hcs Hc) as (h & Hh & Hpp). exists h. split; [|done].
          by apply (so_headers _ _ _ _ _ _ _ _ _ Hok).
      + rewrite app_nil_r. split.
        * done.
        * done.
        * intros sb Hsb Hh Hn. rewrite Htab1 in Hh. rewrite Hpe. destruct (Hold _ Hsb Hh Hn) as (Hne & Hh0 & Hn0).
          destruct (aj_wait _ _ _ HJ _ Hsb Hh0 Hn0) as [?|Hin]; [by left|]. right. apply elem_of_cons in Hin as [->|?]; done.
        * intros sb p cs' Hsb H1 H2. rewrite Hpe in H1. rewrite Hww by (intros ->; congruence). by eapply (aj_par _ _ _ HJ).
        * intros y Hy. apply (aj_q _ _ _ HJ). by right.
    - rewrite bool_decide_eq_false_2 in Hpop by (intros []; done). cbn [negb] in Hpop.
      apply rbind_Ok in Hpop as (m & Hc & Hpop).
      set (n' := with_db (ac_node a) _) in *. set (a1 := mkActor n' _ _ _ _) in *.
      apply rbind_Ok in Hpop as ([a2 o] & Hw & Hpop). cbn [fst snd] in Hpop.
      assert (tab n' = write_signed_block hb (tab (ac_node a)) (rt x) x) as Htab by done.
      pose proof (walk_maps _ _ _ _ _ _ _ Hw) as (Hn2 & _). cbn [ac_node a1] in Hn2.
      assert (a' = a2) as -> by (destruct o; by injection Hpop).
      rewrite Hn2 in *.
      assert (node_step E (ac_node a) (ev_pending x) = Ok n') as Hstep.
      { cbn. unfold pends. rewrite (proj2 (N.ltb_lt _ _)) by done. rewrite (proj2 (N.leb_le _ _)) by done.
        rewrite (inv_state _ _ _ _ _ Hi), Hps, bool_decide_eq_false_2 by (intros []; done). done. }
      destruct (nj_step _ _ (ev_pending x) n' HN Hfut Ham Hstep) as (w' & HN' & Hok & [_ Hdet]). cbn in Hdet.
      destruct Hdet as (-> & _ & _).
      (* the maps with [x] registered *)
      pose proof (reach_ranked E gt vals Hgood Hvals _ rank Hrank Hr) as Hrk.
      pose proof (reach_ranked E gt vals Hgood Hvals _ rank Hrank Hr') as Hrk'.
      destruct (chase_ok rank a (size (ac_par a)) (b_parent (sb_block x)) (aj_p _ _ _ HJ) Hrk (cnt_le rank _ _)) as (m' & Hm & _ & Hanc).
      rewrite Hm in Hc. injection Hc as ->.
      assert (parent_of (tab n') (rt x) (b_parent (sb_block x))) as Hpar.
      { exists (header_of hb (sb_block x)). split; [|done]. by rewrite Htab, written_headers, lookup_insert. }
      assert (pending_ok a1) as HP1.
      { apply (register_ok (with_node a n') (rt x) (b_parent (sb_block x)) m); [|done|].
        - apply (pending_grow a); [exact Hgrow|done|done|apply HJ].
        - cbn [ac_node with_node]. destruct Hanc as [->|Hanc]; [by apply sa_one|]. eapply sa_more; [exact Hpar|]. by eapply anc_grow. }
      pose proof (walk_ok E rank n' (size (t_headers (tab n'))) a1 m eq_refl HP1 Hrk' (cnt_le rank _ _)) as Hwalk.
      rewrite Hw in Hwalk. destruct Hwalk as (_ & Hw1 & Hw2 & Hw3).
      assert (forall k c, (exists cs, ac_pend a1 !! k = Some cs /\ c ∈ cs) <->
        (k = b_parent (sb_block x) /\ c = rt x) \/ (exists cs, ac_pend a !! k = Some cs /\ c ∈ cs)) as Hreg
        by (apply (register_set (with_node a n') (rt x) (b_parent (sb_block x)) m)).
      exists w. split.
      2:{ intros y Hy [Hh| ->]; [by apply Hgr|]. rewrite Htab, written_headers, lookup_insert. by eexists. }
      split.
      + by rewrite Hn2.
      + done.
      + rewrite Hn2. intros sb Hsb Hh Hn.
        destruct (decide (rt sb = rt x)) as [Heq|Hne].
        { left. pose proof (Ham sb Hsb (eq_sym Heq)) as ->. apply Hw1, Hreg. by left. }
        rewrite Htab, written_headers, lookup_insert_ne in Hh by done.
        destruct (aj_wait _ _ _ HJ _ Hsb Hh Hn) as [Hin|Hin].
        * left. apply Hw1, Hreg. by right.
        * right. apply elem_of_app. left. apply elem_of_cons in Hin as [->|?]; done.
      + intros sb p cs Hsb H1 H2. destruct (Hw2 p (rt sb)) as [Hin|[Hin _]]; [by exists cs| |].
        * apply Hreg in Hin as [[-> _]|(cs' & G1 & G2)]; [done|]. by eapply (aj_par _ _ _ HJ).
        * rewrite (inv_state _ _ _ _ _ (nj_inv _ _ HN')) in Hin. apply bool_decide_eq_false in Hin. by apply eq_None_not_Some.
      + intros y Hy. apply elem_of_app in Hy as [Hy|Hy]; [apply (aj_q _ _ _ HJ); by right|].
        destruct o as [sb'|r]; injection Hpop as <- _; [|by apply elem_of_nil in Hy].
        apply elem_of_list_singleton in Hy as ->. destruct Hw3 as (z & h & Hz & Hs & Hg).
        eapply read_among; [exact HN'| |exact Hg]. eapply child_not_anchor; [exact HN'|by exists h|].
        rewrite (inv_state _ _ _ _ _ (nj_inv _ _ HN')) in Hs. by apply bool_decide_eq_true in Hs.
  Qed.

  Lemma aj_same a q w a' : AJ a q w -> ac_node a' = ac_node a -> ac_pend a' = ac_pend a -> ac_par a' = ac_par a -> AJ a' q w.
  Proof.
    intros HJ Hn Hp Hq. pose proof HJ as [J1 J2 J3 J4 J5]. split; rewrite ?Hn, ?Hp; try done.
    by apply (pending_grow a); [rewrite Hn; by intros ? ?| | |].
  Qed.
  Lemma loop_aj fuel W a q w a' fx : AJ a q w -> world_ok W -> block_loop E C fuel W a q = Ok (a', fx) -> fut (ac_node a') ->
    exists w', AJ a' [] w' /\ (forall y, y ∈ bs -> is_Some (t_headers (tab (ac_node a)) !! rt y) \/ y ∈ q ->
      is_Some (t_headers (tab (ac_node a')) !! rt y)).
  Proof.
    revert a q w fx. induction fuel as [|f IH]; intros a [|x q] w fx HJ HW H Hfut; cbn [block_loop] in H; try done;
      try (injection H as <- <-; exists w; split; [done|]; intros y Hy [?|Hin]; [done|by apply elem_of_nil in Hin]).
    apply rbind_Ok in H as ([[a1 q1] fx1] & H1 & H). apply rbind_Ok in H as ([a2 fx2] & H2 & H).
    cbn [fst snd] in *. injection H as <- <-. pose proof (loop_goes E C _ _ _ _ _ _ H2) as (G2 & _).
    pose proof (fut_goes _ _ _ G2 Hfut) as Hfut1.
    destruct (pop_aj _ _ _ _ _ _ _ _ HJ HW H1 Hfut1) as (w1 & HJ1 & Hh1).
    destruct (IH _ _ _ _ HJ1 HW H2 Hfut) as (w2 & HJ2 & Hh2). exists w2. split; [done|].
    intros y Hy Hin. apply Hh2; [done|]. destruct Hin as [Hh|Hin]; [left; apply Hh1; auto|].
    apply elem_of_cons in Hin as [->|Hin]; [left; apply Hh1; auto|]. right. apply elem_of_app. by left.
  Qed.

  (** Events that touch no block of the set. *)
  Definition aside (e : node_event) : Prop :=
    match e with ev_block x => forall y, y ∈ bs -> rt x <> rt y | ev_pending _ => False | _ => True end.
  Definition passing (n n' : Node) : Prop := exists es, node_run E n es n' /\ Forall aside es.
  Lemma passing_refl n : passing n n.
  Proof. exists []. split; [constructor|done]. Qed.
  Lemma passing_trans n n1 n2 : passing n n1 -> passing n1 n2 -> passing n n2.
  Proof.
    intros (es & H1 & F1) (es' & H2 & F2). exists (es ++ es'). split; [by eapply run_app|]. by apply Forall_app.
  Qed.
  Lemma passing_one n e n' : node_step E n e = Ok n' -> aside e -> passing n n'.
  Proof. intros H Ha. exists [e]. split; [by apply run_one|]. by constructor. Qed.

  Lemma aside_step a w e n' : AJ a [] w -> fut (ac_node a) -> aside e -> node_step E (ac_node a) e = Ok n' ->
    exists w', AJ (with_node a n') [] w'.
  Proof.
    intros HJ Hfut Has Hs. pose proof (aj_n _ _ _ HJ) as HN.
    assert (clean e) as Hcl.
    { destruct e; cbn in *; try done. intros x Hx Heq. by apply Has in Heq. }
    destruct (nj_step _ _ _ _ HN Hfut Hcl Hs) as (w' & HN' & Hok & [_ Hd]). exists w'.
    assert (forall y, y ∈ bs -> w' !! rt y = w !! rt y /\ t_headers (tab n') !! rt y = t_headers (tab (ac_node a)) !! rt y) as Hy.
    { intros y Hy. destruct e as [sb|sb|ts hp|sa agg|sg|l keys|slot| |]; cbn in Hd, Has;
        try (destruct Hd as (-> & -> & _); done); try done.
      destruct Hd as [[-> ->]|(? & ? & _ & _ & _ & _ & -> & (-> & _))]; [done|].
      rewrite written_headers, !lookup_insert_ne by (by apply Has). done. }
    split; cbn [ac_node with_node ac_pend].
    - done.
    - apply (pending_grow a); [|done|done|apply HJ]. exact (so_headers _ _ _ _ _ _ _ _ _ Hok).
    - intros sb Hsb Hh Hn. destruct (Hy _ Hsb) as [H1 H2]. rewrite H1 in Hn. rewrite H2 in Hh.
      by apply (aj_wait _ _ _ HJ).
    - intros sb p cs Hsb H1 H2. pose proof (aj_par _ _ _ HJ _ _ _ Hsb H1 H2) as Hn.
      pose proof (waits_parent _ _ _ _ _ _ HJ H1 H2) as ->. destruct (parent_bs _ _ _ _ HJ Hsb Hn) as (y & Hyb & Hr).
      rewrite <- Hr in *. destruct (Hy _ Hyb) as [-> _]. done.
    - intros x Hx. by apply elem_of_nil in Hx.
  Qed.
  Lemma passing_aj a w n' : AJ a [] w -> passing (ac_node a) n' -> fut n' -> exists w', AJ (with_node a n') [] w'.
  Proof.
    intros HJ (es & Hrun & Has). revert Has. remember (ac_node a) as n eqn:Hn. revert Hn.
    induction Hrun as [|es n1 e n2 Hrun IH Hs]; intros Hn Has Hfut.
    - exists w. subst n. by destruct a.
    - apply Forall_app in Has as [Ha1 Ha2]. rewrite Forall_singleton in Ha2.
      assert (fut n1) as Hfut1 by (destruct Hfut as [es' ?]; eexists; eapply run_app; [by apply run_one|done]).
      destruct (IH Hn Ha1 Hfut1) as (w1 & HJ1). destruct (aside_step _ _ e n2 HJ1 Hfut1 Ha2 Hs) as (w2 & HJ2). by exists w2.
  Qed.

  Lemma votes_pass W n data agg vs n' fx : publish_votes E W n data agg vs = Ok (n', fx) -> passing n n'.
  Proof.
    revert n fx. induction vs as [|v vs IH]; intros n fx H; cbn [publish_votes] in H.
    { injection H as <- <-. apply passing_refl. }
    destruct (w_sign W v data) as [sig|]; [|by eapply IH].
    apply rbind_Ok in H as (n1 & H1 & H). apply rbind_Ok in H as ([n2 fx2] & H2 & H). injection H as <- <-.
    apply IH in H2. cbn [fst snd]. eapply passing_trans; [|exact H2]. destruct agg.
    - apply (passing_one _ (ev_attestation (mkSA v data sig) true)); [|done]. cbn [node_step].
      destruct (on_gossip_attestation E n (mkSA v data sig) true); cbn in *; congruence.
    - injection H1 as <-. apply passing_refl.
  Qed.
  Lemma import_pass W n sb n' fx : import_and_emit E W n sb = Ok (n', fx) -> aside (ev_block sb) -> passing n n'.
  Proof.
    unfold import_and_emit. intros H Ha. apply rbind_Ok in H as (n1 & H1 & H). apply rbind_Ok in H as (? & _ & H).
    injection H as <- _. apply (passing_one _ (ev_block sb)); [|done]. cbn. by rewrite H1.
  Qed.
  Lemma propose_pass W a slot v a' fx : (forall n s u x y, w_build W n s u = Some x -> y ∈ bs -> rt x <> rt y) ->
    propose_block E W a slot v = Ok (a', fx) -> passing (ac_node a) (ac_node a').
  Proof.
    intros Hb. unfold propose_block. intros H. apply rbind_Ok in H as ([n1 h] & H1 & H). cbn [fst] in *.
    assert (passing (ac_node a) n1) as G1.
    { apply (passing_one _ (ev_propose slot)); [cbn [node_step]; by rewrite H1|done]. }
    destruct (w_build W n1 slot v) as [sb|] eqn:Hsb; [|by injection H as <- <-].
    destruct (import_and_emit E W n1 sb) as [[n2 fx2]|e|] eqn:Hpb; [|by injection H as <- <-|done].
    injection H as <- <-. eapply passing_trans; [exact G1|]. cbn [ac_node with_node]. eapply import_pass; [done|].
    intros y Hy. by eapply Hb.
  Qed.
  Lemma interval_pass W a slot i a' fx : (forall n s u x y, w_build W n s u = Some x -> y ∈ bs -> rt x <> rt y) ->
    interval_duty E C W a slot i = Ok (a', fx) -> passing (ac_node a) (ac_node a').
  Proof.
    intros Hb. unfold interval_duty. intros H. destruct i.
    - injection H as <- <-. apply passing_refl.
    - destruct (duties_allowed C a); [|injection H as <- <-; apply passing_refl].
      unfold produce_attestations in H. apply rbind_Ok in H as (data & _ & H).
      apply rbind_Ok in H as ([n1 fx1] & H1 & H). injection H as <- <-. by apply votes_pass in H1.
    - destruct (_ && _); [|injection H as <- <-; apply passing_refl].
      apply session_goes in H as (-> & _). apply passing_refl.
    - injection H as <- <-. apply passing_refl.
    - apply rbind_Ok in H as (p & _ & H). destruct p as [v|]; [|injection H as <- <-; apply passing_refl].
      destruct (duties_allowed C a); [|injection H as <- <-; apply passing_refl].
      by apply propose_pass in H.
  Qed.
  Lemma tick_pass W a a' fx : (forall n s u x y, w_build W n s u = Some x -> y ∈ bs -> rt x <> rt y) ->
    actor_on_tick E C W a = Ok (a', fx) -> passing (ac_node a) (ac_node a').
  Proof.
    intros Hb. unfold actor_on_tick. intros H. destruct (_ && _) in H; [injection H as <- <-; apply passing_refl|].
    apply rbind_Ok in H as (s & _ & H). destruct (s_validators s); [injection H as <- <-; apply passing_refl|].
    apply rbind_Ok in H as (a1 & Hu & H). apply rbind_Ok in H as (pr & _ & H). apply rbind_Ok in H as (n2 & Ht & H).
    apply rbind_Ok in H as ([a2 fx2] & Hd & H). apply rbind_Ok in H as (? & _ & H). apply rbind_Ok in H as (? & _ & H).
    injection H as <- <-. cbn [fst snd] in *. apply interval_pass in Hd; [|done]. cbn in Hd.
    unfold update_sync_status in Hu. apply rbind_Ok in Hu as (? & _ & Hu). injection Hu as <-.
    eapply passing_trans; [|exact Hd]. by apply (passing_one _ (ev_tick (w_now W) pr)).
  Qed.

  (** One message. *)
  Lemma step_aj W a m a' fx w : AJ a [] w -> world_ok W ->
    (forall x g, m = m_block x g -> among x) ->
    (forall n s u x y, w_build W n s u = Some x -> y ∈ bs -> rt x <> rt y) ->
    actor_step E C W a m = Ok (a', fx) -> fut (ac_node a') ->
    exists w', AJ a' [] w' /\ (forall g y, y ∈ bs -> m = m_block y g -> is_Some (t_headers (tab (ac_node a')) !! rt y)).
  Proof.
    intros HJ HW Hm Hb H Hfut.
    assert (forall a1 : Actor, passing (ac_node a) (ac_node a1) -> ac_pend a1 = ac_pend a -> ac_par a1 = ac_par a ->
      fut (ac_node a1) -> exists w', AJ a1 [] w') as Hquiet.
    { intros a1 Hp H1 H2 Hf. destruct (passing_aj _ _ _ HJ Hp Hf) as (w' & HJ'). exists w'. by apply (aj_same (with_node a (ac_node a1))). }
    destruct m as [|sb g|sa|sg| |id data p parts keys]; cbn [actor_step] in H.
    - pose proof (tick_goes E C _ _ _ _ H) as (_ & H1 & H2). apply tick_pass in H; [|done].
      destruct (Hquiet a' H H1 H2 Hfut) as (w' & ?). exists w'. split; [done|]. intros g y _ [=].
    - apply rbind_Ok in H as ([a1 fx1] & H1 & H). injection H as <- <-. cbn [fst snd] in *.
      unfold actor_on_block in H1. apply rbind_Ok in H1 as ([a2 fx2] & H2 & H1). apply rbind_Ok in H1 as (d & Hd & H1).
      injection H1 as <- _. cbn [fst snd ac_node with_node] in *.
      assert (node_step E (ac_node a2) ev_prune = Ok (with_db (ac_node a2) d)) as Hs by (cbn; by rewrite Hd).
      assert (fut (ac_node a2)) as Hfut2 by (destruct Hfut as [es ?]; eexists; eapply run_app; [by apply run_one|done]).
      assert (AJ a [sb] w) as HJ0.
      { destruct HJ as [J1 J2 J3 J4 J5]. split; try done.
        - intros y Hy Hh Hn. destruct (J3 _ Hy Hh Hn) as [?|Hin]; [by left|by apply elem_of_nil in Hin].
        - intros x Hx. apply elem_of_list_singleton in Hx as ->. by eapply Hm. }
      destruct (loop_aj _ _ _ _ _ _ _ HJ0 HW H2 Hfut2) as (w2 & HJ2 & Hh2).
      destruct (aside_step a2 w2 ev_prune _ HJ2 Hfut2 I Hs) as (w3 & HJ3). exists w3. split; [done|].
      intros g' y Hy [= -> _]. specialize (Hh2 y Hy ltac:(right; by left)).
      destruct (nj_step _ _ ev_prune _ (aj_n _ _ _ HJ2) Hfut2 I Hs) as (w4 & _ & Hok & _).
      destruct Hh2 as [h Hh2]. exists h. by apply (so_headers _ _ _ _ _ _ _ _ _ Hok).
    - apply rbind_Ok in H as ([n1 fx1] & H1 & H). cbn [fst snd] in *.
      assert (passing (ac_node a) n1) as G1.
      { destruct (on_gossip_attestation E (ac_node a) sa (w_aggregator W)) as [n'|e|] eqn:Ho; [| |done];
          injection H1 as <- <-; [|apply passing_refl].
        apply (passing_one _ (ev_attestation sa (w_aggregator W))); [|done]. cbn. by rewrite Ho. }
      assert (ac_node a' = n1 /\ ac_pend a' = ac_pend a /\ ac_par a' = ac_par a) as (K1 & K2 & K3).
      { destruct (_ =? _) in H; [|by injection H as <- <-].
        apply rbind_Ok in H as ([a2 fx2] & H2 & H). injection H as <- <-. by apply early_goes in H2 as (-> & -> & -> & _). }
      destruct (Hquiet a') as (w' & ?); [by rewrite K1|done|done|done|]. exists w'. split; [done|]. intros g y _ [=].
    - destruct (Hquiet a') as (w' & ?); [|destruct (on_gossip_aggregated_attestation E (ac_node a) sg); [| |done]; by injection H as <- <-..|done|].
      { destruct (on_gossip_aggregated_attestation E (ac_node a) sg) as [n'|e|] eqn:Ho; [| |done];
          injection H as <- <-; [|apply passing_refl].
        apply (passing_one _ (ev_aggregate sg)); [|done]. cbn. by rewrite Ho. }
      exists w'. split; [done|]. intros g y _ [=].
    - apply early_goes in H as (K1 & K2 & K3 & _).
      destruct (Hquiet a') as (w' & ?); [rewrite K1; apply passing_refl|done|done|done|]. exists w'. split; [done|]. intros g y _ [=].
    - assert (passing (ac_node a) (ac_node a') /\ ac_pend a' = ac_pend a /\ ac_par a' = ac_par a) as (K1 & K2 & K3).
      { case_bool_decide; [|injection H as <- <-; split; [apply passing_refl|done]].
        apply rbind_Ok in H as (n' & H1 & H). injection H as <- <-. split; [|done].
        apply (passing_one _ (ev_local [(data, p)] keys)); [|done]. cbn [node_step insert_new_batch].
        unfold apply_aggregated_group in H1. apply rbind_Ok in H1 as (n1 & H2 & H1). rewrite H2. cbn [rbind]. done. }
      destruct (Hquiet a') as (w' & ?); [done..|]. exists w'. split; [done|]. intros g y _ [=].
  Qed.

  (** At the end nothing of the set waits. *)
  Lemma aj_done a w : AJ a [] w -> (forall sb, sb ∈ bs -> is_Some (t_headers (tab (ac_node a)) !! rt sb)) ->
    forall sb, sb ∈ bs -> w !! rt sb = Some (post (rt sb)) /\
      (forall p cs, ac_pend a !! p = Some cs -> rt sb ∉ cs).
  Proof.
    intros HJ Hall.
    assert (forall k sb, N.to_nat (rank (rt sb)) = k -> sb ∈ bs -> is_Some (w !! rt sb)) as Hst.
    { induction k as [k IH] using lt_wf_ind. intros sb Hk Hsb. destruct (w !! rt sb) eqn:Hn; [by eexists|]. exfalso.
      destruct (aj_wait _ _ _ HJ _ Hsb (Hall _ Hsb) Hn) as [(cs & H1 & H2)|Hin]; [|by apply elem_of_nil in Hin].
      pose proof (aj_par _ _ _ HJ _ _ _ Hsb H1 H2) as Hp. destruct (parent_bs _ _ _ _ HJ Hsb Hp) as (y & Hy & Hr).
      pose proof (root_rank sb). rewrite <- Hr in *. destruct (IH (N.to_nat (rank (rt y))) ltac:(lia) y eq_refl Hy). congruence. }
    intros sb Hsb. destruct (Hst _ sb eq_refl Hsb) as [s Hs]. split.
    { rewrite Hs. f_equal. by apply (nj_post _ _ (aj_n _ _ _ HJ)). }
    intros p cs H1 H2. pose proof (aj_par _ _ _ HJ _ _ _ Hsb H1 H2) as Hp.
    pose proof (waits_parent _ _ _ _ _ _ HJ H1 H2) as ->. destruct (parent_bs _ _ _ _ HJ Hsb Hp) as (y & Hy & Hr).
    rewrite <- Hr in Hp. destruct (Hst _ y eq_refl Hy). congruence.
  Qed.
End Deliver.

Section All.
  Context (E : Env) (C : Config) (gt : N) (vals : list Validator).
  Context (Hgood : good_hash (e_header E)) (Hvals : lenN vals <= VALIDATOR_REGISTRY_LIMIT)
    (Hacyc : acyclic_hash (e_header E)).
  Notation rt sb := (block_root (e_header E) (e_body E) (sb_block sb)).

  Lemma C41_all_pf a tr a' bs post :
    (forall l, e_body E l = e_body E [] -> l = []) ->
    actor_reachable E C gt vals a -> actor_run E C a tr a' ->
    (forall x y, x ∈ bs -> y ∈ bs -> rt x = rt y -> x = y) ->
    valid_tree E (ac_node a) bs post -> genuine E bs tr ->
    (forall sb, sb ∈ bs -> t_headers (tab (ac_node a)) !! rt sb = None /\
      cp_slot (db_fin (nd_db (ac_node a))) < b_slot (sb_block sb) /\
      5 * b_slot (sb_block sb) <= db_time (nd_db (ac_node a)) + 1) ->
    (forall sb, sb ∈ bs -> exists W g fx, (W, m_block sb g, fx) ∈ tr) ->
    (forall sb r s, sb ∈ bs -> read_state (tab (ac_node a')) r = Ok (Some s) ->
      b_slot (sb_block sb) <= cp_slot (s_finalized s) -> strict_anc (tab (ac_node a')) (rt sb) r) ->
    forall sb, sb ∈ bs ->
      read_state (tab (ac_node a')) (rt sb) = Ok (Some (post (rt sb))) /\
      (forall p cs, ac_pend a' !! p = Some cs -> rt sb ∉ cs) /\ ac_par a' !! rt sb = None.
  Proof.
    intros Hempty Hreach Hrun Huniq Hvalid Hgen Hnew Hdel HfinE. pose proof Hacyc as (rank & Hrank).
    pose proof (actor_reach E C gt vals Hgood Hvals _ Hreach Hacyc) as [Hr HP].
    destruct (reach_rows E gt vals Hgood Hvals _ Hr) as (A & As & w0 & [Hi0 Hm0] & Hrows).
    pose proof (run_pending E C gt vals Hgood Hvals rank Hrank _ _ _ Hr HP Hrun) as [HrE HPE].
    assert (forall r s, w0 !! r = Some s <-> read_state (tab (ac_node a)) r = Ok (Some s)) as Hw0.
    { intros r s. split; [by apply (w_read _ _ _ _ _ _ _ _ _ Hi0)|]. intros Hs. unfold tab in Hs. destruct (w0 !! r) as [s'|] eqn:Hw.
      - rewrite (w_read _ _ _ _ _ _ _ _ _ Hi0 Hw) in Hs. congruence.
      - pose proof (w_read_none _ _ _ _ _ _ _ _ Hi0 Hw). congruence. }
    set (T := db_time (nd_db (ac_node a))). set (fin0 := db_fin (nd_db (ac_node a))).
    assert (Hvalid' : forall sb, sb ∈ bs -> exists p, passes E p sb (post (rt sb)) /\
      (w0 !! b_parent (sb_block sb) = Some p \/
       exists q, q ∈ bs /\ rt q = b_parent (sb_block sb) /\ p = post (b_parent (sb_block sb)))).
    { intros sb Hsb. destruct (Hvalid sb Hsb) as (p & Hp & Hor). exists p. split; [done|].
      destruct Hor as [H|H]; [left; by apply Hw0|by right]. }
    assert (Hslot : forall sb, sb ∈ bs -> cp_slot fin0 < b_slot (sb_block sb)) by (intros; by apply Hnew).
    assert (Htime : forall sb, sb ∈ bs -> 5 * b_slot (sb_block sb) <= T + 1) by (intros; by apply Hnew).
    set (aj := AJ E gt vals bs post A As w0 T fin0).
    assert (aj a [] w0) as HJ0.
    { split.
      - split; try done.
        + by left.
        + intros sb s Hsb Hs. destruct (w_header _ _ _ _ _ _ _ _ _ Hi0 Hs) as (Hh & _).
          destruct (Hnew _ Hsb) as (Hn & _). unfold tab in *. congruence.
        + intros sb Hsb [h Hh] _. destruct (Hnew _ Hsb) as (Hn & _). congruence.
        + intros sb x Hsb Hg. destruct (Hnew _ Hsb) as (Hn & _). unfold get_signed_block in Hg. by rewrite Hn in Hg.
      - done.
      - intros sb Hsb [h Hh] _. destruct (Hnew _ Hsb) as (Hn & _). congruence.
      - intros sb p cs Hsb H1 H2. destruct (po_parent _ HP _ _ _ H1 H2) as (h & Hh & _).
        destruct (Hnew _ Hsb) as (Hn & _). congruence.
      - intros x Hx. by apply elem_of_nil in Hx. }
    assert (forall tr1 a1, actor_run E C a tr1 a1 -> genuine E bs tr1 -> fut E (ac_node a') (ac_node a1) ->
      exists w, aj a1 [] w /\ forall sb, sb ∈ bs -> (exists W g fx, (W, m_block sb g, fx) ∈ tr1) ->
        is_Some (t_headers (tab (ac_node a1)) !! rt sb)) as Hmain.
    { intros tr1 a1 Hrun1. induction Hrun1 as [|tr1 a1 W m a2 fx Hrun1 IH HW Hs]; intros Hg Hfut.
      - exists w0. split; [done|]. intros sb _ (? & ? & ? & Hin). by apply elem_of_nil in Hin.
      - pose proof (step_goes _ _ _ _ _ _ _ Hs) as G. pose proof (fut_goes E _ _ _ _ G Hfut) as Hfut1.
        destruct IH as (w1 & HJ1 & Hd1).
        { intros W' m' fx' sb Hin. apply (Hg W' m' fx'). apply elem_of_app. by left. }
        { done. }
        assert (forall sb, sb ∈ bs -> _) as Hg' by (intros sb; apply (Hg W m fx sb); apply elem_of_app; right; by left).
        cbn beta in Hg'.
        destruct (step_aj E gt vals Hgood Hvals rank Hrank bs post A As w0 T fin0 (ac_node a) (ac_node a')
          Hr Hi0 Hempty Huniq Hvalid' Hslot Htime HrE HfinE C W a1 m a2 fx w1 HJ1 HW) as (w2 & HJ2 & Hd2); try done.
        + intros x g -> y Hy Heq. by apply (proj1 (Hg' y Hy) x g).
        + intros n s u x y Hb Hy. by apply (proj2 (Hg' y Hy) n s u x).
        + exists w2. split; [done|]. intros sb Hsb (W' & g & fx' & Hin). apply elem_of_app in Hin as [Hin|Hin].
          * destruct (Hd1 sb Hsb) as [h Hh]; [by eauto|].
            destruct (goes_mono E gt vals Hgood Hvals _ _ _ (nj_reach _ _ _ _ _ _ _ _ _ _ _ _ (aj_n _ _ _ _ _ _ _ _ _ _ _ _ _ HJ1)) G) as [Hgrow _].
            exists h. by apply Hgrow.
          * apply elem_of_list_singleton in Hin. injection Hin as <- <- <-. by eapply Hd2. }
    destruct (Hmain _ _ Hrun Hgen) as (w & HJ & Hall). { exists []. constructor. }
    intros sb Hsb.
    destruct (aj_done E gt vals Hgood Hvals rank Hrank bs post A As w0 T fin0 (ac_node a')
      Huniq Hvalid' Hslot Htime HfinE a' w HJ) with (sb := sb) as [Hs Hp]; [by auto|done|].
    split_and!.
    - apply (w_read _ _ _ _ _ _ _ _ _ (nj_inv _ _ _ _ _ _ _ _ _ _ _ _ (aj_n _ _ _ _ _ _ _ _ _ _ _ _ _ HJ)) Hs).
    - done.
    - destruct (ac_par a' !! rt sb) as [m|] eqn:Hm; [|done]. exfalso.
      destruct (proj1 (po_same _ HPE _) (ex_intro _ m Hm)) as (p & cs & H1 & H2). by apply (Hp p cs).
  Qed.
End All.
