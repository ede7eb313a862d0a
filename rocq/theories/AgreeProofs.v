(** Proofs about the agreement of nodes. *)
From Verif Require Export AgreeSpec NodeThms NodeThms6 SafetyProofs.
Local Open Scope N_scope.

(** ** Fork choice does not look below its start *)
Definition agree_above (m1 m2 : BlockTree) (s : N) : Prop :=
  forall r e, s < e.1 -> (m1 !! r = Some e <-> m2 !! r = Some e).
Lemma agree_sym m1 m2 s : agree_above m1 m2 s -> agree_above m2 m1 s.
Proof. intros H r e He. by rewrite (H r e He). Qed.
Lemma walk_agree f1 f2 m1 m2 s r l1 l2 :
  agree_above m1 m2 s -> walk f1 m1 s r = Some l1 -> walk f2 m2 s r = Some l2 -> l1 = l2.
Proof.
  intros Ha. revert f2 r l1 l2. induction f1 as [|f1 IH]; intros f2 r l1 l2 H1 H2;
    cbn [walk] in H1; destruct f2 as [|f2]; cbn [walk] in H2;
    destruct (m1 !! r) as [[s1 p1]|] eqn:E1; destruct (m2 !! r) as [[s2 p2]|] eqn:E2;
    repeat match goal with
    | H : context [if s <? ?x then _ else _] |- _ => destruct (N.ltb_spec s x)
    end; try congruence;
    try (match goal with
    | E : m1 !! r = Some (?x, ?p), H : s < ?x |- _ =>
        pose proof (proj1 (Ha r (x, p) H) E)
    end); try (match goal with
    | E : m2 !! r = Some (?x, ?p), H : s < ?x |- _ =>
        pose proof (proj2 (Ha r (x, p) H) E)
    end); simplify_eq; try lia; try done.
  destruct (walk f1 m1 s p2) as [k1|] eqn:K1; [|done]. destruct (walk f2 m2 s p2) as [k2|] eqn:K2; [|done].
  rewrite (IH _ _ _ _ K1 K2) in H1. congruence.
Qed.
Lemma add_weights_agree m1 m2 s votes w w1 w2 :
  agree_above m1 m2 s -> add_weights m1 s votes w = Some w1 -> add_weights m2 s votes w = Some w2 -> w1 = w2.
Proof.
  intros Ha. revert w. induction votes as [|[v d] votes IH]; intros w H1 H2; cbn [add_weights] in H1, H2; [congruence|].
  destruct (walk (size m1) m1 s (cp_root (ad_head d))) as [l1|] eqn:E1; [|done].
  destruct (walk (size m2) m2 s (cp_root (ad_head d))) as [l2|] eqn:E2; [|done].
  rewrite (walk_agree _ _ _ _ _ _ _ _ Ha E1 E2) in H1. by eapply IH.
Qed.
Lemma greedy_agree m1 m2 W ms s h sh ph h1 h2 :
  agree_above m1 m2 s -> slots_decrease m1 -> slots_decrease m2 ->
  m1 !! h = Some (sh, ph) -> m2 !! h = Some (sh, ph) -> s <= sh ->
  greedy m1 W ms h h1 -> greedy m2 W ms h h2 -> h1 = h2.
Proof.
  intros Ha Hd1 Hd2 E1 E2 Hs G1. revert sh ph h2 E1 E2 Hs.
  induction G1 as [h Hno|h c h1 Hel Hbest G1 IH]; intros sh ph h2 E1 E2 Hs G2.
  - destruct G2 as [|h c h2 [[sc Hc] Hm] _ _]; [done|]. exfalso. apply (Hno c). split; [|done].
    exists sc. pose proof (Hd2 _ _ _ _ _ Hc E2). apply Ha; [cbn; lia|done].
  - assert (forall c, eligible m1 W ms h c <-> eligible m2 W ms h c) as He.
    { intros c0. split; intros [[sc Hc] Hm]; (split; [|done]); exists sc.
      - pose proof (Hd1 _ _ _ _ _ Hc E1). apply Ha; [cbn; lia|done].
      - pose proof (Hd2 _ _ _ _ _ Hc E2). apply Ha; [cbn; lia|done]. }
    destruct G2 as [h Hno|h c2 h2 Hel2 Hbest2 G2]; [by destruct (Hno c); apply He|].
    assert (c = c2) as ->.
    { specialize (Hbest c2 ltac:(by apply He)). specialize (Hbest2 c ltac:(by apply He)).
      unfold not_better in *. lia. }
    destruct Hel as [[sc Hc] _]. pose proof (Hd1 _ _ _ _ _ Hc E1).
    eapply IH; [exact Hc| |lia|exact G2]. apply Ha; [cbn; lia|done].
Qed.

Section Agree.
  Context (E : Env) (gt : N) (vals : list Validator).
  Notation hs := (e_state E).
  Notation hh := (e_header E).
  Notation hb := (e_body E).
  Notation stf_ := (state_transition hs hh hb).
  Notation root_ := (block_root hh hb).
  Context (Hgood : good_hash hh) (Hvals : lenN vals <= VALIDATOR_REGISTRY_LIMIT).
  Local Notation db_inv := (db_inv E gt vals).
  Local Notation node_inv := (node_inv E gt vals).

  Lemma live_at A As w d r s :
    db_inv A As w d -> cp_slot (db_just d) <= s_slot s -> w !! r = Some s ->
    live_chain (db_tab d) !! r = Some (s_slot s, h_parent (s_header s)).
  Proof.
    intros Hi Hs Hw. apply (live_lookup E gt vals _ _ _ _ _ _ _ Hi). by apply (di_live_all _ _ _ _ _ _ _ Hi).
  Qed.
  (** Two databases with the same justified checkpoint and the same states from its slot on. *)
  Lemma ghost_agree A1 As1 w1 d1 A2 As2 w2 d2 votes ms :
    db_inv A1 As1 w1 d1 -> db_inv A2 As2 w2 d2 -> db_just d1 = db_just d2 ->
    (forall r s, cp_slot (db_just d1) <= s_slot s -> (w1 !! r = Some s <-> w2 !! r = Some s)) ->
    exists h wt, compute_lmd_ghost_head (cp_root (db_just d1)) (map_to_list (live_chain (db_tab d1))) votes ms = Some (h, wt) /\
      compute_lmd_ghost_head (cp_root (db_just d2)) (map_to_list (live_chain (db_tab d2))) votes ms = Some (h, wt).
  Proof.
    intros H1 H2 Hj Hw.
    assert (agree_above (live_chain (db_tab d1)) (live_chain (db_tab d2)) (cp_slot (db_just d1))) as Ha.
    { intros r [sl p] Hlt. cbn [fst] in Hlt. split; intros Hl.
      - destruct (live_w E gt vals _ _ _ _ _ _ _ H1 Hl) as (s & Hs & -> & ->).
        apply (live_at _ _ _ _ _ _ H2); [rewrite <- Hj; lia|]. apply Hw; [lia|done].
      - destruct (live_w E gt vals _ _ _ _ _ _ _ H2 Hl) as (s & Hs & -> & ->).
        apply (live_at _ _ _ _ _ _ H1); [lia|]. apply Hw; [lia|done]. }
    destruct (di_just _ _ _ _ _ _ _ H1) as (sj & Hwj & Hsj).
    pose proof (live_at _ _ _ _ _ sj H1 ltac:(lia) Hwj) as L1.
    assert (w2 !! cp_root (db_just d2) = Some sj) as Hwj2 by (rewrite <- Hj; apply Hw; [lia|done]).
    pose proof (live_at _ _ _ _ _ sj H2 ltac:(rewrite <- Hj; lia) Hwj2) as L2.
    destruct (ghost_spec (cp_root (db_just d1)) (map_to_list (live_chain (db_tab d1))) votes ms
                (s_slot sj) (h_parent (s_header sj))) as (h1 & wt1 & G1 & W1 & K1 & _).
    { exact (w_nonzero E gt vals Hgood _ _ _ _ _ H1 (mk_is_Some _ _ Hwj)). }
    { apply NoDup_fst_map_to_list. }
    { rewrite list_to_map_to_list. exact (live_zero E gt vals Hgood _ _ _ _ H1). }
    { rewrite list_to_map_to_list. exact (live_decreasing E gt vals Hgood Hvals _ _ _ _ H1). }
    { by rewrite list_to_map_to_list. }
    destruct (ghost_spec (cp_root (db_just d2)) (map_to_list (live_chain (db_tab d2))) votes ms
                (s_slot sj) (h_parent (s_header sj))) as (h2 & wt2 & G2 & W2 & K2 & _).
    { exact (w_nonzero E gt vals Hgood _ _ _ _ _ H2 (mk_is_Some _ _ Hwj2)). }
    { apply NoDup_fst_map_to_list. }
    { rewrite list_to_map_to_list. exact (live_zero E gt vals Hgood _ _ _ _ H2). }
    { rewrite list_to_map_to_list. exact (live_decreasing E gt vals Hgood Hvals _ _ _ _ H2). }
    { by rewrite list_to_map_to_list. }
    unfold compute_block_weights in W1, W2. rewrite list_to_map_to_list in W1, W2, K1, K2.
    rewrite Hsj in W1, W2. rewrite (add_weights_agree _ _ _ _ _ _ _ Ha W1 W2) in G1, K1.
    rewrite <- Hj in L2, K2.
    assert (h1 = h2) as ->.
    { eapply (greedy_agree (live_chain (db_tab d1)) (live_chain (db_tab d2))); [exact Ha| | |exact L1|exact L2|lia|exact K1|exact K2].
      - exact (live_decreasing E gt vals Hgood Hvals _ _ _ _ H1).
      - exact (live_decreasing E gt vals Hgood Hvals _ _ _ _ H2). }
    exists h2, wt2. done.
  Qed.

  Lemma reach_inv n : reachable E gt vals n -> exists A As w, node_inv A As w n.
  Proof.
    intros (a & n0 & es & Ha & Hs & Hr).
    destruct (started_inv E gt vals Hgood Hvals _ _ Ha Hs) as (w & Hi & _).
    destruct (run_inv E gt vals Hgood Hvals _ _ _ _ _ _ Hi Hr) as (w' & Hst). eexists _, _, _. apply Hst.
  Qed.
  Lemma w_iff A As w d r s : db_inv A As w d -> w !! r = Some s <-> read_state (db_tab d) r = Ok (Some s).
  Proof.
    intros Hi. split; [exact (w_read _ _ _ _ _ _ _ _ _ Hi)|]. intros H. destruct (w !! r) as [s'|] eqn:Hw.
    - rewrite (w_read _ _ _ _ _ _ _ _ _ Hi Hw) in H. congruence.
    - rewrite (w_read_none _ _ _ _ _ _ _ _ Hi Hw) in H. congruence.
  Qed.
  Lemma w_has A As w d r : db_inv A As w d -> has_state (db_tab d) r = bool_decide (is_Some (w !! r)).
  Proof. intros Hi. eapply has_state_spec, (di_st _ _ _ _ _ _ _ Hi). Qed.

  Lemma view_ghost n1 n2 A1 As1 w1 A2 As2 w2 :
    db_inv A1 As1 w1 (nd_db n1) -> db_inv A2 As2 w2 (nd_db n2) -> same_view n1 n2 ->
    exists h, ghost_head n1 = Ok h /\ ghost_head n2 = Ok h.
  Proof.
    intros H1 H2 [Hj Hb Hv].
    destruct (ghost_agree _ _ _ _ _ _ _ _ (known_votes n1) 0 H1 H2 Hj) as (h & wt & G1 & G2).
    { intros r s Hs. rewrite (w_iff _ _ _ _ _ _ H1), (w_iff _ _ _ _ _ _ H2). by apply Hb. }
    exists h. unfold ghost_head, tab. rewrite G1. split; [done|].
    assert (known_votes n2 = known_votes n1) as -> by (unfold known_votes; f_equal; symmetry; by apply map_eq).
    by rewrite G2.
  Qed.

  Lemma same_head_pf n1 n2 :
    reachable E gt vals n1 -> reachable E gt vals n2 -> same_view n1 n2 ->
    exists n1' n2', update_head n1 = Ok n1' /\ update_head n2 = Ok n2' /\
      db_head (nd_db n1') = db_head (nd_db n2') /\ settled n1' /\ settled n2'.
  Proof.
    assert (forall n A As w, node_inv A As w n -> exists n' h, update_head n = Ok n' /\ ghost_head n = Ok h /\
      db_head (nd_db n') = h /\ settled n') as G.
    { intros n A As w [Hi Hm].
      destruct (update_head_spec E gt vals Hgood Hvals _ _ _ _ Hi Hm)
        as (n' & h & s & o & d1 & Hu & Hg & Hs & Ho & Hap & Hdb & Hi1 & Hi2 & Hm' & Hok & Hhu & Hv & Hf).
      exists n', h. split; [done|]. split; [done|]. split; [by apply Hhu|].
      unfold settled. rewrite (hu_head _ _ _ Hhu).
      destruct (view_ghost n n' _ _ _ _ _ _ Hi Hi2) as (h' & G1 & G2); [|congruence].
      split.
      - by rewrite (hu_just _ _ _ Hhu).
      - intros r x _. unfold tab. by rewrite <- (w_iff _ _ _ _ _ _ Hi), <- (w_iff _ _ _ _ _ _ Hi2).
      - by rewrite Hv. }
    intros H1 H2 Hsv. destruct (reach_inv _ H1) as (A1 & As1 & w1 & I1). destruct (reach_inv _ H2) as (A2 & As2 & w2 & I2).
    destruct (G _ _ _ _ I1) as (n1' & h1 & U1 & G1 & E1 & S1). destruct (G _ _ _ _ I2) as (n2' & h2 & U2 & G2 & E2 & S2).
    destruct (view_ghost n1 n2 _ _ _ _ _ _ (proj1 I1) (proj1 I2) Hsv) as (h & X1 & X2).
    exists n1', n2'. split_and!; try done. congruence.
  Qed.

  (** ** When the head is up to date *)
  Lemma update_settled n A As w n' :
    node_inv A As w n -> update_head n = Ok n' -> settled n'.
  Proof.
    intros [Hi Hm] Hu0.
    destruct (update_head_spec E gt vals Hgood Hvals _ _ _ _ Hi Hm)
      as (n1 & h & s & o & d1 & Hu & Hg & Hs & Ho & Hap & Hdb & Hi1 & Hi2 & Hm' & Hok & Hhu & Hv & Hf).
    rewrite Hu in Hu0. injection Hu0 as <-.
    unfold settled. rewrite (hu_head _ _ _ Hhu).
    destruct (view_ghost n n1 _ _ _ _ _ _ Hi Hi2) as (h' & G1 & G2); [|congruence].
    split.
    - by rewrite (hu_just _ _ _ Hhu).
    - intros r x _. unfold tab. by rewrite <- (w_iff _ _ _ _ _ _ Hi), <- (w_iff _ _ _ _ _ _ Hi2).
    - by rewrite Hv.
  Qed.
  Lemma import_settled A As w n sb n' :
    node_inv A As w n -> on_block E n sb = Ok n' -> has_state (tab n) (root_ (sb_block sb)) = false -> settled n'.
  Proof.
    intros Hn H Hh. unfold on_block in H. apply rbind_Ok in H as (o & Hc & H).
    destruct (check_block_spec E gt vals _ _ _ _ _ _ (proj1 Hn) Hc) as [[-> Hr]|(p & post & Hnone & Hpar & Hst & ->)].
    - exfalso. unfold tab in Hh. rewrite (w_has _ _ _ _ _ (proj1 Hn)) in Hh. by rewrite bool_decide_eq_true_2 in Hh.
    - destruct (import_spec E gt vals Hgood Hvals _ _ _ _ sb _ _ Hn Hnone Hpar Hst) as
        (d1 & d3 & n1 & h & o & d4 & H1 & _ & _ & _ & _ & H2 & Hi3 & H3 & H4 & _).
      rewrite H1 in H. cbn [expect rbind] in H. rewrite H2 in H. cbn [expect rbind] in H. apply expect_Ok in H.
      eapply update_settled; [|exact H]. split; [exact Hi3|]. destruct Hn as [_ Hm]. done.
  Qed.
  Lemma accept_settled A As w n n' :
    node_inv A As w n -> accept_new_attestations E n = Ok n' -> settled n'.
  Proof.
    intros [Hi (M1 & M2 & M3)] H. unfold accept_new_attestations in H. apply rbind_Ok in H as (p & Hp & H).
    destruct (promote_ok E (nd_new n) (nd_known n) M1 M2) as (x & y & Hx1 & Hx2 & Hx3).
    eapply update_settled; [|exact H]. split; [exact Hi|].
    assert (p = (x, y)) as -> by congruence. done.
  Qed.
  Lemma settled_pf n :
    reachable E gt vals n ->
    (forall sb n', on_block E n sb = Ok n' -> has_state (tab n) (root_ (sb_block sb)) = false -> settled n') /\
    (forall n', accept_new_attestations E n = Ok n' -> settled n').
  Proof.
    intros Hr. destruct (reach_inv _ Hr) as (A & As & w & Hi). split.
    - intros sb n'. by apply (import_settled A As w).
    - intros n'. by apply (accept_settled A As w).
  Qed.

  (** ** One anchor *)
  Lemma run_from_inv a n : valid_anchor E gt vals a -> run_from E a n ->
    exists w, node_inv (hh (s_header (stored_anchor hs a))) (s_slot a) w n /\ fin_inv (s_slot a) w (nd_db n) /\
      w !! hh (s_header (stored_anchor hs a)) = Some (stored_anchor hs a).
  Proof.
    intros Ha (n0 & es & Hs & Hr).
    destruct (started_facts E gt vals Hgood Hvals _ _ Ha Hs) as (Hi & _ & _ & _).
    pose proof (lookup_singleton (M := gmap H256) (db_head (nd_db n0)) (stored_anchor hs a)) as Hl.
    destruct (w_header E gt vals _ _ _ _ _ _ (proj1 Hi) Hl) as (Hh & _).
    pose proof (si_hash _ _ _ _ _ (di_st _ _ _ _ _ _ _ (proj1 Hi)) _ _ Hh) as Hhash.
    rewrite <- Hhash in Hi, Hl.
    destruct (run_inv E gt vals Hgood Hvals _ _ _ _ _ _ Hi Hr) as (w' & Hst).
    exists w'. split; [apply Hst|]. split; [|by apply (so_w _ _ _ _ _ _ _ _ _ Hst)].
    apply (so_fin _ _ _ _ _ _ _ _ _ Hst). intros H0 s Hsl Hn.
    assert (s = stored_anchor hs a) as ->.
    { rewrite Hhash in Hsl. congruence. }
    exfalso. apply Hn. cbn. done.
  Qed.
  Lemma run_from_reachable a n : valid_anchor E gt vals a -> run_from E a n -> reachable E gt vals n.
  Proof. intros Ha (n0 & es & Hs & Hr). by exists a, n0, es. Qed.

  Lemma same_headers A1 As1 w1 d1 A2 As2 w2 d2 r h1 h2 :
    db_inv A1 As1 w1 d1 -> db_inv A2 As2 w2 d2 ->
    t_headers (db_tab d1) !! r = Some h1 -> t_headers (db_tab d2) !! r = Some h2 -> h1 = h2.
  Proof.
    intros H1 H2 E1 E2. apply (proj1 Hgood).
    by rewrite (si_hash _ _ _ _ _ (di_st _ _ _ _ _ _ _ H1) _ _ E1), (si_hash _ _ _ _ _ (di_st _ _ _ _ _ _ _ H2) _ _ E2).
  Qed.
  Lemma path_same A As1 w1 d1 As2 w2 d2 r l l' :
    db_inv A As1 w1 d1 -> db_inv A As2 w2 d2 -> path (db_tab d1) A r l -> path (db_tab d2) A r l' -> l = l'.
  Proof.
    intros H1 H2 P1. revert l'. induction P1 as [h Hh|r h l Hne Hh P1 IH]; intros l' P2.
    - inversion P2; [done|]. done.
    - inversion P2 as [|r' h' l'' _ Hh' P2' E1]; subst; [done|]. f_equal. apply IH.
      by rewrite (same_headers _ _ _ _ _ _ _ _ _ _ _ H1 H2 Hh Hh').
  Qed.
  Lemma index_same A As1 w1 d1 As2 w2 d2 :
    db_inv A As1 w1 d1 -> db_inv A As2 w2 d2 -> db_head d1 = db_head d2 ->
    forall s, t_roots (db_tab d1) !! s = t_roots (db_tab d2) !! s.
  Proof.
    assert (forall As1 w1 d1 As2 w2 d2, db_inv A As1 w1 d1 -> db_inv A As2 w2 d2 -> db_head d1 = db_head d2 ->
      forall s r, t_roots (db_tab d1) !! s = Some r -> t_roots (db_tab d2) !! s = Some r) as G.
    { clear - Hgood. intros As1 w1 d1 As2 w2 d2 H1 H2 Hh s r Hr. apply (di_index _ _ _ _ _ _ _ H1) in Hr as (l & h & Hp & Hin & Hr & Hs).
      apply (di_index _ _ _ _ _ _ _ H2).
      destruct (di_head _ _ _ _ _ _ _ H2) as [st Hw]. destruct (di_path _ _ _ _ _ _ _ H2 _ _ Hw) as (l' & Hp' & _ & Hall & _).
      rewrite Hh in Hp. pose proof (path_same _ _ _ _ _ _ _ _ _ _ H1 H2 Hp Hp') as <-.
      destruct (Hall _ Hin) as [sx Hx]. destruct (w_header E gt vals _ _ _ _ _ _ H2 Hx) as (Hhx & _).
      exists l, (s_header sx). split_and!; try done.
      by rewrite <- (same_headers _ _ _ _ _ _ _ _ _ _ _ H1 H2 Hr Hhx). }
    intros H1 H2 Hh s. destruct (t_roots (db_tab d1) !! s) as [r|] eqn:R1.
    - symmetry. by apply (G _ _ _ _ _ _ H1 H2 Hh).
    - destruct (t_roots (db_tab d2) !! s) as [r|] eqn:R2; [|done].
      by rewrite (G _ _ _ _ _ _ H2 H1 (eq_sym Hh) _ _ R2) in R1.
  Qed.
  Lemma fin_same A w1 n1 w2 n2 :
    node_inv A 0 w1 n1 -> node_inv A 0 w2 n2 -> fin_inv 0 w1 (nd_db n1) -> fin_inv 0 w2 (nd_db n2) ->
    head_ok (nd_db n1) -> head_ok (nd_db n2) ->
    w1 !! db_head (nd_db n1) = w2 !! db_head (nd_db n2) -> db_fin (nd_db n1) = db_fin (nd_db n2).
  Proof.
    intros [H1 _] [H2 _] F1 F2 K1 K2 Hs. destruct (di_head _ _ _ _ _ _ _ H1) as [s Hw1].
    rewrite Hw1 in Hs. symmetry in Hs. destruct (decide (s_slot s = 0)) as [H0|Hn].
    - assert (forall w n, db_inv A 0 w (nd_db n) -> head_ok (nd_db n) -> w !! db_head (nd_db n) = Some s ->
        db_fin (nd_db n) = mkCp A 0) as G.
      { intros w n Hi Hok Hw. unfold head_ok in Hok.
        pose proof (live_decreasing E gt vals Hgood Hvals _ _ _ _ Hi) as Hdec.
        assert (cp_slot (db_just (nd_db n)) <= s_slot s) as Hle.
        { destruct (live_just E gt vals Hvals _ _ _ _ Hi) as [p Hp].
          pose proof (descends_in _ _ _ Hok) as [[[sl q] Hq] _].
          destruct (live_w E gt vals _ _ _ _ _ _ _ Hi Hq) as (s' & Hs' & -> & _).
          assert (s' = s) as -> by congruence.
          destruct (descends_slot _ _ _ _ _ _ _ Hdec Hok Hq Hp) as [Hx _]. exact Hx. }
        pose proof (di_fin_just _ _ _ _ _ _ _ Hi). destruct (di_fin _ _ _ _ _ _ _ Hi) as (sf & Hf & Hsf).
        destruct (w_slot_ge E gt vals Hvals _ _ _ _ _ _ Hi Hf) as [_ Hr].
        destruct (db_fin (nd_db n)) as [fr fs]. cbn in *. f_equal; [apply Hr; lia|lia]. }
      rewrite (G _ _ H1 K1 Hw1), (G _ _ H2 K2 Hs). done.
    - rewrite (F1 eq_refl _ Hw1 Hn), (F2 eq_refl _ Hs Hn). done.
  Qed.
  Lemma run_from_head a n : valid_anchor E gt vals a -> run_from E a n -> head_ok (nd_db n).
  Proof.
    intros Ha (n0 & es & Hs & Hr). destruct (started_inv E gt vals Hgood Hvals _ _ Ha Hs) as (w & Hi & Hok).
    destruct (run_inv E gt vals Hgood Hvals _ _ _ _ _ _ Hi Hr) as (w' & Hst). by apply (so_head _ _ _ _ _ _ _ _ _ Hst).
  Qed.
  Lemma agree_pf a n1 n2 :
    valid_anchor E gt vals a -> run_from E a n1 -> run_from E a n2 ->
    same_view n1 n2 -> settled n1 -> settled n2 ->
    db_head (nd_db n1) = db_head (nd_db n2) /\
    (forall s, t_roots (tab n1) !! s = t_roots (tab n2) !! s) /\
    (s_slot a = 0 -> db_fin (nd_db n1) = db_fin (nd_db n2)).
  Proof.
    intros Ha R1 R2 Hsv S1 S2.
    destruct (run_from_inv _ _ Ha R1) as (w1 & I1 & F1 & _). destruct (run_from_inv _ _ Ha R2) as (w2 & I2 & F2 & _).
    destruct (view_ghost n1 n2 _ _ _ _ _ _ (proj1 I1) (proj1 I2) Hsv) as (h & G1 & G2).
    assert (db_head (nd_db n1) = db_head (nd_db n2)) as Hh by (unfold settled in *; congruence).
    split; [done|]. split; [exact (index_same _ _ _ _ _ _ _ (proj1 I1) (proj1 I2) Hh)|].
    intros H0. rewrite H0 in *. eapply fin_same; [exact I1|exact I2|done|done| | |].
    - by apply (run_from_head a).
    - by apply (run_from_head a).
    - rewrite <- Hh. destruct (di_head _ _ _ _ _ _ _ (proj1 I1)) as [s Hs]. rewrite Hs. symmetry.
      apply (w_iff _ _ _ _ _ _ (proj1 I2)), (sv_blocks _ _ Hsv); [|by apply (w_iff _ _ _ _ _ _ (proj1 I1))].
      pose proof (run_from_head _ _ Ha R1) as Hok. unfold head_ok in Hok.
      pose proof (live_decreasing E gt vals Hgood Hvals _ _ _ _ (proj1 I1)) as Hdec.
      destruct (live_just E gt vals Hvals _ _ _ _ (proj1 I1)) as [p Hp].
      pose proof (descends_in _ _ _ Hok) as [[[sl q] Hq] _].
      destruct (live_w E gt vals _ _ _ _ _ _ _ (proj1 I1) Hq) as (s' & Hs' & -> & _).
      assert (s' = s) as -> by congruence.
      destruct (descends_slot _ _ _ _ _ _ _ Hdec Hok Hq Hp) as [Hx _]. exact Hx.
  Qed.

  (** ** The votes they cast *)
  Lemma lookback_same k t1 t2 s r h x1 x2 :
    (forall r h1 h2, t_headers t1 !! r = Some h1 -> t_headers t2 !! r = Some h2 -> h1 = h2) ->
    lookback k t1 s r h = Ok x1 -> lookback k t2 s r h = Ok x2 -> x1 = x2.
  Proof.
    intros Ht. revert r h. induction k as [|k IH]; intros r h H1 H2; cbn [lookback] in H1, H2; [congruence|].
    destruct (s <? h_slot h); [|congruence]. unfold get_header in *.
    destruct (t_headers t1 !! h_parent h) as [p1|] eqn:E1; [|done].
    destruct (t_headers t2 !! h_parent h) as [p2|] eqn:E2; [|done].
    rewrite (Ht _ _ _ E1 E2) in H1. by eapply IH.
  Qed.
  Lemma justifiable_same k1 k2 t1 t2 f r h x1 x2 :
    (forall r h1 h2, t_headers t1 !! r = Some h1 -> t_headers t2 !! r = Some h2 -> h1 = h2) ->
    justifiable_walk k1 t1 f r h = Ok x1 -> justifiable_walk k2 t2 f r h = Ok x2 -> x1 = x2.
  Proof.
    intros Ht. revert k2 r h. induction k1 as [|k1 IH]; intros k2 r h H1 H2; cbn [justifiable_walk] in H1;
      destruct k2 as [|k2]; cbn [justifiable_walk] in H2; destruct (_ && _) in H1, H2; try congruence.
    unfold get_header in *.
    destruct (t_headers t1 !! h_parent h) as [p1|] eqn:E1; [|done].
    destruct (t_headers t2 !! h_parent h) as [p2|] eqn:E2; [|done].
    rewrite (Ht _ _ _ E1 E2) in H1. by eapply IH.
  Qed.
  Lemma same_vote_pf n1 n2 slot a1 a2 :
    reachable E gt vals n1 -> reachable E gt vals n2 ->
    db_head (nd_db n1) = db_head (nd_db n2) -> db_safe (nd_db n1) = db_safe (nd_db n2) ->
    db_just (nd_db n1) = db_just (nd_db n2) -> db_fin (nd_db n1) = db_fin (nd_db n2) ->
    read_state (tab n1) (db_head (nd_db n1)) = read_state (tab n2) (db_head (nd_db n2)) ->
    produce_attestation_data (nd_db n1) slot = Ok a1 -> produce_attestation_data (nd_db n2) slot = Ok a2 -> a1 = a2.
  Proof.
    intros R1 R2 Hh Hsf Hj Hf Hs P1 P2.
    destruct (reach_inv _ R1) as (A1 & As1 & w1 & I1). destruct (reach_inv _ R2) as (A2 & As2 & w2 & I2).
    pose proof (fun r h1 h2 => same_headers _ _ _ _ _ _ _ _ r h1 h2 (proj1 I1) (proj1 I2)) as Ht.
    unfold produce_attestation_data, tab in *. rewrite <- Hs, <- Hh in P2.
    apply rbind_Ok in P1 as (o & Ho & P1). apply rbind_Ok in P2 as (o' & Ho' & P2).
    assert (o' = o) as -> by congruence. clear Ho'. destruct o as [s|]; [|done]. unfold get_header in *.
    destruct (t_headers (db_tab (nd_db n1)) !! db_head (nd_db n1)) as [h1|] eqn:E1; [|done].
    destruct (t_headers (db_tab (nd_db n2)) !! db_head (nd_db n1)) as [h2|] eqn:E2; [|done].
    pose proof (Ht _ _ _ E1 E2) as <-.
    apply rbind_Ok in P1 as (t1 & T1 & P1). apply rbind_Ok in P2 as (t2 & T2 & P2).
    assert (t1 = t2) as ->; [|congruence].
    unfold get_attestation_target, get_attestation_target_with_checkpoints, get_header in T1, T2.
    rewrite <- Hh, <- Hsf, <- Hj, <- Hf in T2. rewrite E1 in T1. rewrite E2 in T2.
    destruct (t_headers (db_tab (nd_db n1)) !! db_safe (nd_db n1)) as [g1|] eqn:S1; [|done].
    destruct (t_headers (db_tab (nd_db n2)) !! db_safe (nd_db n1)) as [g2|] eqn:S2; [|done].
    pose proof (Ht _ _ _ S1 S2) as <-.
    apply rbind_Ok in T1 as (x1 & X1 & T1). apply rbind_Ok in T2 as (x2 & X2 & T2).
    pose proof (lookback_same _ _ _ _ _ _ _ _ Ht X1 X2) as <-.
    apply rbind_Ok in T1 as (y1 & Y1 & T1). apply rbind_Ok in T2 as (y2 & Y2 & T2).
    pose proof (justifiable_same _ _ _ _ _ _ _ _ _ Ht Y1 Y2) as <-. congruence.
  Qed.
  Lemma same_safe_pf n1 n2 n1' n2' :
    reachable E gt vals n1 -> reachable E gt vals n2 ->
    db_just (nd_db n1) = db_just (nd_db n2) ->
    (forall r s, cp_slot (db_just (nd_db n1)) <= s_slot s ->
      (read_state (tab n1) r = Ok (Some s) <-> read_state (tab n2) r = Ok (Some s))) ->
    (forall v, fc_new (nd_votes n1) !! v = fc_new (nd_votes n2) !! v) ->
    update_safe_target n1 = Ok n1' -> update_safe_target n2 = Ok n2' ->
    db_safe (nd_db n1') = db_safe (nd_db n2').
  Proof.
    intros R1 R2 Hj Hb Hv U1 U2.
    destruct (reach_inv _ R1) as (A1 & As1 & w1 & I1). destruct (reach_inv _ R2) as (A2 & As2 & w2 & I2).
    assert (forall n n' A As w, node_inv A As w n -> update_safe_target n = Ok n' -> exists h wt,
      compute_lmd_ghost_head (cp_root (db_just (nd_db n))) (map_to_list (live_chain (tab n))) (new_votes n)
        (safe_target_score (lenN vals)) = Some (h, wt) /\ db_safe (nd_db n') = h) as G.
    { intros n n' A As w [Hi _] H. unfold update_safe_target in H. apply rbind_Ok in H as (o & Ho & H).
      destruct o as [s|]; [|done]. apply expect_Ok in Ho. apply (w_iff _ _ _ _ _ _ Hi) in Ho.
      destruct (w_chain_facts E gt vals Hgood _ _ _ _ _ _ Hi Ho) as (_ & _ & _ & Hvs & _). rewrite Hvs in H.
      unfold safe_target in H.
      destruct (compute_lmd_ghost_head _ _ _ _) as [[h wt]|]; [|done]. cbn in H. injection H as <-. by exists h, wt. }
    destruct (G _ _ _ _ _ I1 U1) as (h1 & wt1 & G1 & ->). destruct (G _ _ _ _ _ I2 U2) as (h2 & wt2 & G2 & ->).
    destruct (ghost_agree _ _ _ _ _ _ _ _ (new_votes n1) (safe_target_score (lenN vals)) (proj1 I1) (proj1 I2) Hj)
      as (h & wt & X1 & X2).
    { intros r s Hs. rewrite (w_iff _ _ _ _ _ _ (proj1 I1)), (w_iff _ _ _ _ _ _ (proj1 I2)). by apply Hb. }
    assert (new_votes n2 = new_votes n1) as Hnv by (unfold new_votes; f_equal; symmetry; by apply map_eq).
    unfold tab in *. rewrite Hnv in G2. congruence.
  Qed.

  (** ** Blocks in any order *)
  Lemma run_app_node n es1 n1 es2 n2 : node_run E n es1 n1 -> node_run E n1 es2 n2 -> node_run E n (es1 ++ es2) n2.
  Proof.
    intros H1 H2. induction H2 as [|es m e m' _ IH Hs]; [by rewrite app_nil_r|].
    rewrite app_assoc. by econstructor.
  Qed.
  Definition vote_of (v : N) (b : Block) (d : AttestationData) : Prop :=
    exists a, a ∈ b_atts b /\ at_data a = d /\ at_bits a !! N.to_nat v = Some true.
  Record imported (A : H256) (As : N) (w0 : gmap H256 State) (n0 : Node) (k : list SignedBlock)
    (w : gmap H256 State) (n : Node) : Prop := {
    im_step : step_ok E gt vals A As w0 w n0 n;
    im_new : forall r s, w !! r = Some s -> w0 !! r = Some s \/
      exists sb p post, sb ∈ k /\ r = root_ (sb_block sb) /\ w !! b_parent (sb_block sb) = Some p /\
        stf_ p (sb_block sb) = Ok post /\ s = stored_state post (sb_block sb);
    im_k : forall sb, sb ∈ k -> w0 !! root_ (sb_block sb) = None /\ is_Some (w !! root_ (sb_block sb));
    im_votes : forall v, best_of (e_data E) (fun d => fc_known (nd_votes n0) !! v = Some d \/
      exists sb, sb ∈ k /\ vote_of v (sb_block sb) d) (fc_known (nd_votes n) !! v);
    im_just : db_just (nd_db n) = db_just (nd_db n0) \/
      (cp_slot (db_just (nd_db n0)) < cp_slot (db_just (nd_db n)) /\
       exists r s, w !! r = Some s /\ s_justified s = db_just (nd_db n));
    im_nil : k = [] -> n = n0;
    im_settled : k <> [] -> settled n }.

  Lemma imported_nil A As w0 n0 : node_inv A As w0 n0 -> imported A As w0 n0 [] w0 n0.
  Proof.
    intros Hi. split; try done.
    - intros r s Hs. by left.
    - intros sb Hin. by apply elem_of_nil in Hin.
    - intros v. destruct (fc_known (nd_votes n0) !! v) as [d|] eqn:Hd; cbn [best_of].
      + split; [by left|]. intros d' [Hd'|(sb & Hin & _)]; [|by apply elem_of_nil in Hin].
        injection Hd' as ->. apply vote_le_refl.
      + intros d [Hd'|(sb & Hin & _)]; [done|by apply elem_of_nil in Hin].
    - by left.
  Qed.
  Lemma imported_step A As w0 n0 k w n sb n' :
    imported A As w0 n0 k w n -> node_step E n (ev_block sb) = Ok n' ->
    exists k' w', imported A As w0 n0 k' w' n'.
  Proof.
    intros Hk H. cbn [node_step] in H. destruct (on_block E n sb) as [n1|e|] eqn:Ho; cbn [keep] in H; [|by injection H as <-; eauto|done].
    injection H as ->. pose proof (so_inv _ _ _ _ _ _ _ _ _ (im_step _ _ _ _ _ _ _ Hk)) as Hn.
    pose proof Ho as Ho'. unfold on_block in Ho. apply rbind_Ok in Ho as (o & Hc & H).
    destruct (check_block_spec E gt vals _ _ _ _ _ _ (proj1 Hn) Hc) as [[-> Hr]|(p & post & Hnone & Hpar & Hst & ->)].
    { injection H as <-. eauto. }
    destruct (import_spec E gt vals Hgood Hvals _ _ _ _ sb _ _ Hn Hnone Hpar Hst) as
      (d1 & d3 & n1 & h & o & d4 & H1 & _ & Hj1 & _ & _ & H2 & Hi3 & H3 & H4 & _ & _ & _ & _ & _ & _ & Hhu & Hv & _ & _ & Hj3 & _).
    rewrite H1 in H. cbn [expect rbind] in H. rewrite H2 in H. cbn [expect rbind] in H. rewrite H3 in H.
    cbn [expect] in H. injection H as ->.
    assert (has_state (tab n) (root_ (sb_block sb)) = false) as Hh.
    { unfold tab. rewrite (w_has _ _ _ _ _ (proj1 Hn)). apply bool_decide_eq_false_2. rewrite Hnone. by intros [? ?]. }
    exists (k ++ [sb]). eexists. split.
    - exact (NodeProofs.step_trans _ _ _ Hvals _ _ _ _ _ _ _ _ (im_step _ _ _ _ _ _ _ Hk) H4).
    - intros r s. destruct (decide (r = root_ (sb_block sb))) as [->|Hne].
      + rewrite lookup_insert. intros [= <-]. right. exists sb, p, post. split_and!; try done.
        * rewrite elem_of_app, elem_of_list_singleton. by right.
        * rewrite lookup_insert_ne; [done|]. congruence.
      + rewrite lookup_insert_ne by done. intros Hs.
        destruct (im_new _ _ _ _ _ _ _ Hk _ _ Hs) as [Hx|(sb' & p' & post' & X1 & X2 & X3 & X4 & X5)]; [by left|right].
        exists sb', p', post'. split_and!; try done; [by rewrite elem_of_app; left|].
        rewrite lookup_insert_ne; [done|]. congruence.
    - intros sb' Hin. apply elem_of_app in Hin as [Hin|Hin].
      + destruct (im_k _ _ _ _ _ _ _ Hk _ Hin) as [X1 [s X2]]. split; [done|]. exists s.
        rewrite lookup_insert_ne; [done|]. congruence.
      + apply elem_of_list_singleton in Hin as ->. rewrite lookup_insert. split; [|by eexists].
        destruct (w0 !! root_ (sb_block sb)) as [s|] eqn:Hs; [|done].
        apply (so_w _ _ _ _ _ _ _ _ _ (im_step _ _ _ _ _ _ _ Hk)) in Hs. congruence.
    - intros v. rewrite Hv. cbn [nd_votes]. eapply best_of_ext; [|apply block_votes_best, (im_votes _ _ _ _ _ _ _ Hk)].
      intros d. cbn beta. split.
      + intros [[Hx|(sb' & Hin & Hx)]|Hx]; [by left| |].
        * right. exists sb'. rewrite elem_of_app. auto.
        * right. exists sb. rewrite elem_of_app, elem_of_list_singleton. auto.
      + intros [Hx|(sb' & Hin & Hx)]; [by left; left|]. apply elem_of_app in Hin as [Hin|Hin].
        * left. right. eauto.
        * apply elem_of_list_singleton in Hin as ->. by right.
    - rewrite (hu_just _ _ _ Hhu), Hj3, Hj1.
      destruct (N.ltb_spec (cp_slot (db_just (nd_db n))) (cp_slot (s_justified (stored_state post (sb_block sb))))) as [Hlt|Hge].
      + right. split.
        * pose proof (so_just _ _ _ _ _ _ _ _ _ (im_step _ _ _ _ _ _ _ Hk)). lia.
        * eexists _, _. split; [apply lookup_insert|]. done.
      + destruct (im_just _ _ _ _ _ _ _ Hk) as [X|(X & r & s & X1 & X2)]; [by left|right]. split; [done|].
        exists r, s. split; [|done]. rewrite lookup_insert_ne; [done|]. congruence.
    - intros Hnil. by destruct k.
    - intros _. by apply (import_settled _ _ _ _ _ _ Hn Ho').
  Qed.
  Lemma imported_run A As w0 n0 l n :
    node_inv A As w0 n0 -> node_run E n0 (map ev_block l) n -> exists k w, imported A As w0 n0 k w n.
  Proof.
    intros Hi H. remember (map ev_block l) as es eqn:He. revert l He.
    induction H as [|es m e m' _ IH Hs]; intros l He; [eauto using imported_nil|].
    destruct l as [|sb l _] using rev_ind; [by destruct es|].
    rewrite map_app in He. apply app_inj_tail in He as [-> ->].
    destruct (IH _ eq_refl) as (k & w & Hk). by eapply imported_step.
  Qed.

  Lemma states_same A As w0 n0 k1 w1 n1 k2 w2 n2 :
    (forall x y, e_body E x = e_body E y -> x = y) ->
    imported A As w0 n0 k1 w1 n1 -> imported A As w0 n0 k2 w2 n2 ->
    (forall r, is_Some (w1 !! r) <-> is_Some (w2 !! r)) ->
    forall r s, w1 !! r = Some s -> w2 !! r = Some s.
  Proof.
    intros Hb K1 K2 Hdom r s. remember (s_slot s) as t eqn:Ht. revert r s Ht.
    induction t as [t IH] using (well_founded_induction N.lt_wf_0). intros r s Ht Hs.
    destruct (im_new _ _ _ _ _ _ _ K1 _ _ Hs) as [Hx|(sb & p & post & X1 & X2 & X3 & X4 & X5)].
    { by apply (so_w _ _ _ _ _ _ _ _ _ (im_step _ _ _ _ _ _ _ K2)). }
    destruct (proj1 (Hdom r)) as [s2 Hs2]; [by eexists|].
    destruct (im_new _ _ _ _ _ _ _ K2 _ _ Hs2) as [Hx|(sb2 & p2 & post2 & Y1 & Y2 & Y3 & Y4 & Y5)].
    { apply (so_w _ _ _ _ _ _ _ _ _ (im_step _ _ _ _ _ _ _ K1)) in Hx. congruence. }
    assert (sb_block sb2 = sb_block sb) as Hsb.
    { rewrite X2 in Y2. apply (proj1 Hgood) in Y2. destruct (sb_block sb), (sb_block sb2).
      unfold header_of in Y2. cbn in Y2. injection Y2 as -> -> -> -> Hat. apply Hb in Hat as ->. done. }
    rewrite Hsb in *.
    assert (w2 !! b_parent (sb_block sb) = Some p) as Hp.
    { eapply IH; [|reflexivity|exact X3]. subst s. rewrite Ht. cbn.
      pose proof (C02_block_linkage_pf _ _ _ _ _ _ X4) as (L1 & _ & _ & _ & L2 & _). lia. }
    congruence.
  Qed.
  Lemma votes_same A As w0 n0 k1 w1 n1 k2 w2 n2 :
    (forall x y, e_body E x = e_body E y -> x = y) -> (forall x y, e_data E x = e_data E y -> x = y) ->
    imported A As w0 n0 k1 w1 n1 -> imported A As w0 n0 k2 w2 n2 ->
    (forall r, is_Some (w1 !! r) <-> is_Some (w2 !! r)) ->
    forall v, fc_known (nd_votes n1) !! v = fc_known (nd_votes n2) !! v.
  Proof.
    intros Hb Hd K1 K2 Hdom v.
    assert (forall k1 w1 n1 k2 w2 n2, imported A As w0 n0 k1 w1 n1 -> imported A As w0 n0 k2 w2 n2 ->
      (forall r, is_Some (w1 !! r) <-> is_Some (w2 !! r)) -> forall sb, sb ∈ k1 ->
      exists sb', sb' ∈ k2 /\ sb_block sb' = sb_block sb) as G.
    { clear - Hgood Hb. intros k1 w1 n1 k2 w2 n2 K1 K2 Hdom sb Hin.
      destruct (im_k _ _ _ _ _ _ _ K1 _ Hin) as [Hn Hs]. apply Hdom in Hs as [s Hs].
      destruct (im_new _ _ _ _ _ _ _ K2 _ _ Hs) as [Hx|(sb2 & p2 & post2 & Y1 & Y2 & _)]; [congruence|].
      exists sb2. split; [done|]. apply (proj1 Hgood) in Y2. destruct (sb_block sb), (sb_block sb2).
      unfold header_of in Y2. cbn in Y2. injection Y2 as -> -> -> -> Hat. apply Hb in Hat as ->. done. }
    eapply best_unique; [intros; by apply Hd|apply (im_votes _ _ _ _ _ _ _ K1)|].
    eapply best_of_ext; [|apply (im_votes _ _ _ _ _ _ _ K2)]. intros d. cbn beta.
    split; (intros [Hx|(sb & Hin & Hx)]; [by left|right]).
    - destruct (G _ _ _ _ _ _ K2 K1 (fun r => iff_sym (Hdom r)) _ Hin) as (sb' & Hin' & Heq).
      exists sb'. by rewrite Heq.
    - destruct (G _ _ _ _ _ _ K1 K2 Hdom _ Hin) as (sb' & Hin' & Heq).
      exists sb'. by rewrite Heq.
  Qed.

  Lemma state_chain A As w n r s : node_inv A As w n -> w !! r = Some s ->
    exists raw bs, imported_chain E gt vals n raw bs /\ s_justified raw = s_justified s.
  Proof.
    intros [Hi _] Hs. destruct (di_chain _ _ _ _ _ _ _ Hi _ _ Hs) as (raw & bs & Hc & ->).
    exists raw, bs. split; [|done]. split; [done|]. exists r. by apply (w_iff _ _ _ _ _ _ Hi).
  Qed.
  Lemma conflict_third n1 s1 bs1 n2 s2 bs2 :
    imported_chain E gt vals n1 s1 bs1 -> imported_chain E gt vals n2 s2 bs2 ->
    0 < cp_slot (s_justified s1) -> cp_slot (s_justified s1) = cp_slot (s_justified s2) ->
    s_justified s1 <> s_justified s2 -> one_third (lenN vals) (slashable (bs1 ++ bs2)).
  Proof.
    intros [H1 _] [H2 _] H0 Hs Hne. eapply one_third_mono; [intros v Hv; by eapply same_slot_slashable; [exact Hs|exact Hne|exact Hv]|].
    apply overlap.
    - eapply chain_supermajority_exact; [exact H1|by eapply entries_distinct; [apply Hgood|]|done].
    - eapply chain_supermajority_exact; [exact H2|by eapply entries_distinct; [apply Hgood|]|lia].
  Qed.

  Lemma import_order_pf a n0 l1 n1 l2 n2 :
    (forall x y, e_body E x = e_body E y -> x = y) -> (forall x y, e_data E x = e_data E y -> x = y) ->
    valid_anchor E gt vals a -> run_from E a n0 ->
    node_run E n0 (map ev_block l1) n1 -> node_run E n0 (map ev_block l2) n2 ->
    (forall r, has_state (tab n1) r = has_state (tab n2) r) ->
    (forall r, read_state (tab n1) r = read_state (tab n2) r) /\
    (forall v, fc_known (nd_votes n1) !! v = fc_known (nd_votes n2) !! v) /\
    cp_slot (db_just (nd_db n1)) = cp_slot (db_just (nd_db n2)) /\
    ((db_just (nd_db n1) = db_just (nd_db n2) /\ db_head (nd_db n1) = db_head (nd_db n2) /\
      (forall s, t_roots (tab n1) !! s = t_roots (tab n2) !! s) /\
      (s_slot a = 0 -> db_fin (nd_db n1) = db_fin (nd_db n2))) \/
     exists s1 bs1 s2 bs2, imported_chain E gt vals n1 s1 bs1 /\ imported_chain E gt vals n2 s2 bs2 /\
       s_justified s1 = db_just (nd_db n1) /\ s_justified s2 = db_just (nd_db n2) /\
       one_third (lenN vals) (slashable (bs1 ++ bs2))).
  Proof.
    intros Hb Hd Ha R0 R1 R2 Hh.
    destruct (run_from_inv _ _ Ha R0) as (w0 & I0 & F0 & _).
    destruct (imported_run _ _ _ _ _ _ I0 R1) as (k1 & w1 & K1). destruct (imported_run _ _ _ _ _ _ I0 R2) as (k2 & w2 & K2).
    pose proof (so_inv _ _ _ _ _ _ _ _ _ (im_step _ _ _ _ _ _ _ K1)) as I1.
    pose proof (so_inv _ _ _ _ _ _ _ _ _ (im_step _ _ _ _ _ _ _ K2)) as I2.
    assert (forall r, is_Some (w1 !! r) <-> is_Some (w2 !! r)) as Hdom.
    { intros r. specialize (Hh r). unfold tab in Hh. rewrite (w_has _ _ _ _ _ (proj1 I1)), (w_has _ _ _ _ _ (proj1 I2)) in Hh.
      rewrite <- (bool_decide_eq_true (is_Some (w1 !! r))), <- (bool_decide_eq_true (is_Some (w2 !! r))). by rewrite Hh. }
    pose proof (states_same _ _ _ _ _ _ _ _ _ _ Hb K1 K2 Hdom) as Hst.
    pose proof (states_same _ _ _ _ _ _ _ _ _ _ Hb K2 K1 (fun r => iff_sym (Hdom r))) as Hst'.
    pose proof (votes_same _ _ _ _ _ _ _ _ _ _ Hb Hd K1 K2 Hdom) as Hv.
    assert (w1 = w2) as Hw.
    { apply map_eq. intros r. destruct (w1 !! r) as [s|] eqn:E1; [by rewrite (Hst _ _ E1)|].
      destruct (w2 !! r) as [s|] eqn:E2; [by rewrite (Hst' _ _ E2) in E1|done]. }
    assert (cp_slot (db_just (nd_db n1)) = cp_slot (db_just (nd_db n2))) as Hjs.
    { apply N.le_antisymm.
      - destruct (im_just _ _ _ _ _ _ _ K1) as [->|(_ & r & s & X & <-)];
          [apply (so_just _ _ _ _ _ _ _ _ _ (im_step _ _ _ _ _ _ _ K2))|].
        apply (di_just_max _ _ _ _ _ _ _ (proj1 I2) r). by apply Hst.
      - destruct (im_just _ _ _ _ _ _ _ K2) as [->|(_ & r & s & X & <-)];
          [apply (so_just _ _ _ _ _ _ _ _ _ (im_step _ _ _ _ _ _ _ K1))|].
        apply (di_just_max _ _ _ _ _ _ _ (proj1 I1) r). by apply Hst'. }
    assert (forall r, read_state (tab n1) r = read_state (tab n2) r) as Hrd.
    { intros r. unfold tab. destruct (w1 !! r) as [s|] eqn:E1.
      - rewrite (w_read E gt vals _ _ _ _ _ _ (proj1 I1) E1). rewrite Hw in E1.
        by rewrite (w_read E gt vals _ _ _ _ _ _ (proj1 I2) E1).
      - rewrite (w_read_none E gt vals _ _ _ _ _ (proj1 I1) E1). rewrite Hw in E1.
        by rewrite (w_read_none E gt vals _ _ _ _ _ (proj1 I2) E1). }
    split_and!; try done.
    destruct (decide (db_just (nd_db n1) = db_just (nd_db n2))) as [Hj|Hne].
    - left. split; [done|]. destruct (decide (k1 = [])) as [Hk|Hk].
      + assert (k2 = []) as Hk2.
        { destruct k2 as [|sb k2]; [done|exfalso]. destruct (im_k _ _ _ _ _ _ _ K2 sb) as [X1 [s X2]]; [left|].
          destruct (im_new _ _ _ _ _ _ _ K1 _ _ (Hst' _ _ X2)) as [X|(sb' & ? & ? & X & _)]; [congruence|].
          rewrite Hk in X. by apply elem_of_nil in X. }
        rewrite (im_nil _ _ _ _ _ _ _ K1 Hk), (im_nil _ _ _ _ _ _ _ K2 Hk2). done.
      + assert (k2 <> []) as Hk2.
        { intros ->. destruct k1 as [|sb k1]; [done|]. destruct (im_k _ _ _ _ _ _ _ K1 sb) as [X1 [s X2]]; [left|].
          destruct (im_new _ _ _ _ _ _ _ K2 _ _ (Hst _ _ X2)) as [X|(sb' & ? & ? & X & _)]; [congruence|].
          by apply elem_of_nil in X. }
        assert (forall l n, node_run E n0 l n -> run_from E a n) as Hrun.
        { intros l n Hl. destruct R0 as (n00 & es & S0 & Hes). exists n00, (es ++ l). split; [done|]. by eapply run_app_node. }
        eapply agree_pf; [done|by eapply Hrun|by eapply Hrun| | |].
        * split; [done| |done]. intros r s _. by rewrite Hrd.
        * by apply (im_settled _ _ _ _ _ _ _ K1).
        * by apply (im_settled _ _ _ _ _ _ _ K2).
    - right.
      destruct (im_just _ _ _ _ _ _ _ K1) as [Hj1|(Hlt1 & r1 & s1 & X1 & Y1)];
      destruct (im_just _ _ _ _ _ _ _ K2) as [Hj2|(Hlt2 & r2 & s2 & X2 & Y2)]; try congruence.
      + exfalso. rewrite Hj1 in Hjs. lia.
      + exfalso. rewrite Hj2 in Hjs. lia.
      + destruct (state_chain _ _ _ _ _ _ I1 X1) as (raw1 & bs1 & C1 & J1).
        destruct (state_chain _ _ _ _ _ _ I2 X2) as (raw2 & bs2 & C2 & J2).
        exists raw1, bs1, raw2, bs2. split_and!; try done; try congruence.
        eapply conflict_third; [exact C1|exact C2|rewrite J1, Y1; lia|congruence|congruence].
  Qed.
End Agree.
