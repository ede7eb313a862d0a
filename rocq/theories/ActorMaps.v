(** Actor proofs: the pending maps, termination, absence of panics. *)
From Verif Require Export ActorTrace.

Lemma size_le {A B} (m : gmap H256 A) (m' : gmap H256 B) :
  (forall k, is_Some (m !! k) -> is_Some (m' !! k)) -> (size m <= size m')%nat.
Proof.
  intros H. rewrite <- !(size_dom (D := gset H256)). apply subseteq_size. intros k Hk.
  apply elem_of_dom. apply H. by apply elem_of_dom.
Qed.
Lemma size_lt {A B} (m : gmap H256 A) (m' : gmap H256 B) k :
  (forall k, is_Some (m !! k) -> is_Some (m' !! k)) -> m !! k = None -> is_Some (m' !! k) -> (size m < size m')%nat.
Proof.
  intros H H1 H2. rewrite <- !(size_dom (D := gset H256)). apply subset_size. split.
  - intros k' Hk. apply elem_of_dom. apply H. by apply elem_of_dom.
  - intros Hs. specialize (Hs k). rewrite !elem_of_dom in Hs. apply Hs in H2. rewrite H1 in H2. by destruct H2.
Qed.

(** ** Discarding *)
Section Forest.
  Context (rank : H256 -> N) (pend : gmap H256 (gset H256)).
  Context (Hrank : forall p cs c, pend !! p = Some cs -> c ∈ cs -> rank p < rank c).
  Definition in_sub (pend : gmap H256 (gset H256)) (c x : H256) : Prop := x = c \/ under pend c x.

  Lemma under_rank r k : under pend r k -> rank r < rank k.
  Proof.
    induction 1 as [cs c H1 H2|x cs c Hx IH H1 H2]; [by eapply Hrank|]. pose proof (Hrank _ _ _ H1 H2). lia.
  Qed.
  Lemma sub_rank r k : in_sub pend r k -> rank r <= rank k.
  Proof. intros [->|H]; [lia|]. apply under_rank in H. lia. Qed.
  Lemma under_last r k : under pend r k <-> exists x cs, in_sub pend r x /\ pend !! x = Some cs /\ k ∈ cs.
  Proof.
    split.
    - intros [cs c H1 H2|x cs c Hx H1 H2]; [exists r, cs|exists x, cs]; split_and!; try done; [by left|by right].
    - intros (x & cs & [->|Hx] & H1 & H2); [by eapply un_one|by eapply un_more].
  Qed.
  Lemma under_first r k : under pend r k <-> exists cs c, pend !! r = Some cs /\ c ∈ cs /\ in_sub pend c k.
  Proof.
    split.
    - induction 1 as [cs c H1 H2|x cs c Hx (cs0 & c0 & IH1 & IH2 & IH3) H1 H2]; [exists cs, c; split_and!; [done|done|by left]|].
      exists cs0, c0. split_and!; [done|done|]. right. apply under_last. eauto.
    - intros (cs & c & H1 & H2 & [->|H3]); [by eapply un_one|].
      induction H3 as [cs' c' G1 G2|x cs' c' Hx IH G1 G2]; [|by eapply un_more].
      eapply un_more; [by eapply un_one|done|done].
  Qed.
  Context (Huniq : forall p p' cs cs' c, pend !! p = Some cs -> pend !! p' = Some cs' -> c ∈ cs -> c ∈ cs' -> p = p').
  Lemma siblings r cs c c' x :
    pend !! r = Some cs -> c ∈ cs -> c' ∈ cs -> in_sub pend c x -> in_sub pend c' x -> c = c'.
  Proof.
    intros Hr Hc Hc' H1 H2.
    assert (forall d, d ∈ cs -> ~ in_sub pend d r) as Hno.
    { intros d Hd H. apply sub_rank in H. pose proof (Hrank _ _ _ Hr Hd). lia. }
    destruct H1 as [->|H1].
    - destruct H2 as [->|H2]; [done|]. apply under_last in H2 as (y & ys & Hy & Hy1 & Hy2).
      rewrite (Huniq _ _ _ _ _ Hy1 Hr Hy2 Hc) in Hy. by destruct (Hno c' Hc').
    - induction H1 as [ds d G1 G2|y ys d Hy IH G1 G2].
      + destruct H2 as [->|H2].
        * rewrite (Huniq _ _ _ _ _ G1 Hr G2 Hc') in *. destruct (Hno r); [done|by left].
        * apply under_last in H2 as (y & ys & Hy & Hy1 & Hy2). rewrite (Huniq _ _ _ _ _ Hy1 G1 Hy2 G2) in Hy.
          destruct Hy as [->|Hy]; [done|]. apply under_last in Hy as (z & zs & Hz & Hz1 & Hz2).
          rewrite (Huniq _ _ _ _ _ Hz1 Hr Hz2 Hc) in Hz. by destruct (Hno c' Hc').
      + destruct H2 as [->|H2].
        * rewrite (Huniq _ _ _ _ _ G1 Hr G2 Hc') in *. destruct (Hno c); [done|by right].
        * apply under_last in H2 as (z & zs & Hz & Hz1 & Hz2). rewrite (Huniq _ _ _ _ _ Hz1 G1 Hz2 G2) in Hz.
          by apply IH.
  Qed.
End Forest.

Lemma under_mono pend pend' r k : (forall x cs, pend' !! x = Some cs -> pend !! x = Some cs) ->
  under pend' r k -> under pend r k.
Proof.
  intros Hs. induction 1 as [cs c H1 H2|x cs c Hx IH H1 H2]; [eapply un_one; eauto|eapply un_more; eauto].
Qed.

Lemma discard_spec W rank fuel a r :
  world_ok W ->
  (forall p cs c, ac_pend a !! p = Some cs -> c ∈ cs -> rank p < rank c) ->
  (forall p p' cs cs' c, ac_pend a !! p = Some cs -> ac_pend a !! p' = Some cs' -> c ∈ cs -> c ∈ cs' -> p = p') ->
  (size (ac_pend a) <= fuel)%nat ->
  exists a', discard fuel W a r = Ok a' /\
    (forall k cs, ac_pend a' !! k = Some cs <-> ac_pend a !! k = Some cs /\ k <> r /\ ~ under (ac_pend a) r k) /\
    (forall k m, ac_par a' !! k = Some m <-> ac_par a !! k = Some m /\ ~ under (ac_pend a) r k).
Proof.
  intros Hw. revert a r. induction fuel as [|f IH]; intros a r Hrank Huniq Hsize; cbn [discard].
  { destruct (ac_pend a !! r) as [cs|] eqn:Hr.
    - exfalso. assert (size (ac_pend a) = 0%nat) as H0 by lia. apply map_size_empty_inv in H0. by rewrite H0, lookup_empty in Hr.
    - exists a. split; [done|].
      assert (forall k, ~ under (ac_pend a) r k) as Hno.
      { intros k H. apply under_first in H as (cs & c & H & _). congruence. }
      split; intros k x; split; try (by intros [? _]); intros H; split_and!; try done; [|apply Hno..].
      intros ->. congruence. }
  destruct (ac_pend a !! r) as [cs|] eqn:Hr.
  2:{ exists a. split; [done|].
      assert (forall k, ~ under (ac_pend a) r k) as Hno.
      { intros k H. apply under_first in H as (cs & c & H & _). congruence. }
      split; intros k x; split; try (by intros [? _]); intros H; split_and!; try done; [|apply Hno..].
      intros ->. congruence. }
  set (step := fun (r : res unit Actor) c => _).
  (* the fold, from a state where the children in [done] are gone *)
  assert (forall l dn a0, dn ++ l ≡ₚ elements cs ->
    (forall k x, ac_pend a0 !! k = Some x <-> ac_pend a !! k = Some x /\ k <> r /\ forall c, c ∈ dn -> ~ in_sub (ac_pend a) c k) ->
    (forall k m, ac_par a0 !! k = Some m <-> ac_par a !! k = Some m /\ forall c, c ∈ dn -> ~ in_sub (ac_pend a) c k) ->
    exists a', fold_left step l (Ok a0) = Ok a' /\
      (forall k x, ac_pend a' !! k = Some x <-> ac_pend a !! k = Some x /\ k <> r /\ forall c, c ∈ elements cs -> ~ in_sub (ac_pend a) c k) /\
      (forall k m, ac_par a' !! k = Some m <-> ac_par a !! k = Some m /\ forall c, c ∈ elements cs -> ~ in_sub (ac_pend a) c k)) as Hfold.
  { induction l as [|c l IHl]; intros dn a0 Hperm Hp Hq.
    { exists a0. split; [done|]. rewrite app_nil_r in Hperm.
      assert (forall (P : H256 -> Prop), (forall c, c ∈ dn -> P c) <-> (forall c, c ∈ elements cs -> P c)) as Hd.
      { intros P. split; intros H c Hc; apply H; [by rewrite Hperm|by rewrite <- Hperm]. }
      split; intros; [rewrite Hp|rewrite Hq]; by rewrite Hd. }
    assert (c ∈ cs) as Hc by (apply elem_of_elements; rewrite <- Hperm; set_solver).
    assert (forall d, d ∈ dn -> d ∈ cs /\ d <> c) as Hdn.
    { intros d Hd. split; [apply elem_of_elements; rewrite <- Hperm; set_solver|].
      intros ->. pose proof (NoDup_elements cs) as Hnd. rewrite <- Hperm in Hnd.
      apply NoDup_app in Hnd as (_ & Hx & _). apply (Hx c Hd). left. }
    assert (forall x, in_sub (ac_pend a) c x -> x <> r /\ forall d, d ∈ dn -> ~ in_sub (ac_pend a) d x) as Hkeep.
    { intros x Hx. split.
      - intros ->. apply (sub_rank rank _ Hrank) in Hx. pose proof (Hrank _ _ _ Hr Hc). lia.
      - intros d Hd Hdx. destruct (Hdn d Hd) as [Hd1 Hd2].
        apply Hd2. by eapply (siblings rank _ Hrank Huniq). }
    assert (forall x, under (ac_pend a0) c x <-> under (ac_pend a) c x) as Hund.
    { intros x. split.
      - apply under_mono. intros y ys Hy. by apply Hp in Hy as [? _].
      - intros H. induction H as [ds d G1 G2|y ys d Hy IHy G1 G2].
        + eapply un_one; [|exact G2]. apply Hp. split; [done|]. apply Hkeep. by left.
        + eapply un_more; [exact IHy| |exact G2]. apply Hp. split; [done|]. apply Hkeep. by right. }
    assert (forall k x, ac_pend a0 !! k = Some x -> ac_pend a !! k = Some x) as Hsub by (intros k x H; by apply Hp in H as [? _]).
    destruct (IH (with_maps a0 (ac_pend a0) (delete c (ac_par a0))) c) as (a1 & Ha1 & Hp1 & Hq1); cbn [ac_pend ac_par with_maps] in *.
    - intros p cs' d H1 H2. eapply Hrank; eauto.
    - intros p p' cs1 cs2 d H1 H2 H3 H4. eapply Huniq; eauto.
    - assert (size (ac_pend a0) < size (ac_pend a))%nat; [|lia].
      apply (size_lt _ _ r).
      + intros k [x Hx]. exists x. by apply Hsub.
      + apply eq_None_not_Some. intros [x Hx]. by apply Hp in Hx as (_ & ? & _).
      + by exists cs.
    - cbn [fold_left]. unfold step at 2. cbn [rbind]. rewrite Ha1.
      apply (IHl (dn ++ [c]) a1).
      + rewrite <- app_assoc. done.
      + intros k x. rewrite Hp1, Hp, Hund. unfold in_sub. setoid_rewrite elem_of_app. setoid_rewrite elem_of_list_singleton. naive_solver.
      + intros k m. rewrite Hq1, lookup_delete_Some, Hq, Hund. unfold in_sub. setoid_rewrite elem_of_app. setoid_rewrite elem_of_list_singleton. naive_solver. }
  destruct (Hfold (w_iter W cs) [] (with_maps a (delete r (ac_pend a)) (ac_par a))) as (a' & Ha & Hp & Hq); cbn [ac_pend ac_par with_maps].
  - apply Hw.
  - intros k x. rewrite lookup_delete_Some. split; [|naive_solver]. intros [? ?]. split_and!; try done. intros c Hc. by apply elem_of_nil in Hc.
  - intros k m. split; [|naive_solver]. intros H. split; [done|]. intros c Hc. by apply elem_of_nil in Hc.
  - exists a'. split; [exact Ha|].
    assert (forall k, (forall c, c ∈ elements cs -> ~ in_sub (ac_pend a) c k) <-> ~ under (ac_pend a) r k) as Hiff.
    { intros k. rewrite under_first. split.
      - intros H (cs' & c & H1 & H2 & H3). apply (H c); [|done]. apply elem_of_elements. congruence.
      - intros H c Hc Hs. apply H. exists cs, c. split_and!; try done. by apply elem_of_elements. }
    split; intros; [rewrite Hp|rewrite Hq]; by rewrite Hiff.
Qed.

(** ** The invariant of the pending maps *)
Section Maps.
  Context (E : Env) (C : Config).
  Notation hb := (e_body E).
  Notation root_ := (block_root (e_header E) (e_body E)).

  Lemma parent_uniq t c p p' : parent_of t c p -> parent_of t c p' -> p = p'.
  Proof. intros (h & H1 & H2) (h' & G1 & G2). congruence. Qed.
  Definition grows (t t' : Tables) : Prop := forall r h, t_headers t !! r = Some h -> t_headers t' !! r = Some h.
  Lemma parent_grow t t' c p : grows t t' -> parent_of t c p -> parent_of t' c p.
  Proof. intros Hg (h & H & Hp). exists h. split; [by apply Hg|done]. Qed.
  Lemma anc_grow t t' m c : grows t t' -> strict_anc t m c -> strict_anc t' m c.
  Proof.
    intros Hg. induction 1 as [c H|c p H _ IH]; [apply sa_one; by eapply parent_grow|].
    eapply sa_more; [by eapply parent_grow|done].
  Qed.
  Lemma pending_grow a a' : grows (tab (ac_node a)) (tab (ac_node a')) ->
    ac_pend a' = ac_pend a -> ac_par a' = ac_par a -> pending_ok a -> pending_ok a'.
  Proof.
    intros Hg H1 H2 [P1 P2 P3 P4]. split; rewrite ?H1, ?H2; try done.
    - intros p cs c Hp Hc. eapply parent_grow; eauto.
    - intros c m Hm. eapply anc_grow; eauto.
  Qed.
  Lemma pending_start n : pending_ok (start_actor n).
  Proof.
    split; cbn.
    - intros p cs. by rewrite lookup_empty.
    - intros p cs c. by rewrite lookup_empty.
    - intros c. rewrite lookup_empty. split; [by intros []|]. intros (p & cs & H & _). by rewrite lookup_empty in H.
    - intros c m. by rewrite lookup_empty.
  Qed.

  (** One more waiting block. *)
  Definition registered (a : Actor) (x p m : H256) : Actor :=
    with_maps a (<[p := {[x]} ∪ default ∅ (ac_pend a !! p)]> (ac_pend a)) (<[x := m]> (ac_par a)).
  Lemma register_set a x p m : forall k c,
    (exists cs, ac_pend (registered a x p m) !! k = Some cs /\ c ∈ cs) <->
    (k = p /\ c = x) \/ (exists cs, ac_pend a !! k = Some cs /\ c ∈ cs).
  Proof.
    intros k c. cbn. destruct (decide (k = p)) as [->|Hne].
    - rewrite lookup_insert. split.
      + intros (cs & [= <-] & Hc). apply elem_of_union in Hc as [Hc|Hc].
        * apply elem_of_singleton in Hc. by left.
        * right. destruct (ac_pend a !! p) as [cs|]; cbn in Hc; [by exists cs|set_solver].
      + intros [[_ ->]|(cs & Hcs & Hc)]; eexists; (split; [done|]); [set_solver|]. rewrite Hcs. cbn. set_solver.
    - rewrite lookup_insert_ne by done. split; [by right|]. intros [[? _]|H]; done.
  Qed.
  Lemma register_ok a x p m :
    pending_ok a -> parent_of (tab (ac_node a)) x p -> strict_anc (tab (ac_node a)) m x ->
    pending_ok (registered a x p m).
  Proof.
    intros [P1 P2 P3 P4] Hp Hm. split.
    - intros k cs. cbn. destruct (decide (k = p)) as [->|Hne].
      + rewrite lookup_insert. intros [= <-]. set_solver.
      + rewrite lookup_insert_ne by done. apply P1.
    - intros k cs c Hk Hc. destruct (proj1 (register_set a x p m k c)) as [[-> ->]|(cs' & H1 & H2)]; [by exists cs|done|].
      by eapply P2.
    - intros c. transitivity (c = x \/ is_Some (ac_par a !! c)).
      + cbn. destruct (decide (c = x)) as [->|Hne].
        * rewrite lookup_insert. split; [by left|by eexists].
        * rewrite lookup_insert_ne by done. split; [by right|]. by intros [?|?].
      + rewrite P3. setoid_rewrite (register_set a x p m). naive_solver.
    - intros c q. cbn. destruct (decide (c = x)) as [->|Hne].
      + rewrite lookup_insert. by intros [= <-].
      + rewrite lookup_insert_ne by done. apply P4.
  Qed.

  (** A parent's children taken out. *)
  Lemma foldr_delete_lookup {A} (l : list H256) (m : gmap H256 A) k :
    foldr delete m l !! k = if decide (k ∈ l) then None else m !! k.
  Proof.
    induction l as [|x l IH]; cbn.
    - destruct (decide (k ∈ [])) as [H|H]; [|done]. by apply elem_of_nil in H.
    - destruct (decide (k = x)) as [->|Hne].
      + rewrite lookup_delete. rewrite decide_True; [done|left].
      + rewrite lookup_delete_ne by done. rewrite IH. apply decide_ext. set_solver.
  Qed.
  Lemma collect_ok W a r : world_ok W -> pending_ok a -> pending_ok (collect_pending_children E W a r).1.
  Proof.
    intros HW [P1 P2 P3 P4]. unfold collect_pending_children.
    destruct (ac_pend a !! r) as [cs|] eqn:Hr; [|done]. cbn [fst].
    assert (forall c, c ∈ w_iter W cs <-> c ∈ cs) as Hit by (intros c; rewrite (HW cs); apply elem_of_elements).
    split; cbn [ac_pend ac_par ac_node with_maps].
    - intros p cs' H. apply lookup_delete_Some in H as [_ H]. by eapply P1.
    - intros p cs' c H. apply lookup_delete_Some in H as [_ H]. by eapply P2.
    - intros c. rewrite foldr_delete_lookup. destruct (decide (c ∈ w_iter W cs)) as [Hin|Hout].
      + split; [by intros []|]. intros (p & cs' & Hp & Hc). apply lookup_delete_Some in Hp as [Hne Hp].
        apply Hit in Hin. pose proof (parent_uniq _ _ _ _ (P2 _ _ _ Hr Hin) (P2 _ _ _ Hp Hc)). congruence.
      + rewrite P3. split; intros (p & cs' & Hp & Hc).
        * exists p, cs'. split; [|done]. apply lookup_delete_Some. split; [|done]. intros ->. apply Hout, Hit. congruence.
        * apply lookup_delete_Some in Hp as [_ Hp]. eauto.
    - intros c m. rewrite foldr_delete_lookup. destruct (decide _); [done|]. apply P4.
  Qed.
  Lemma size_foldr_delete {A} (l : list H256) (m : gmap H256 A) :
    NoDup l -> (forall x, x ∈ l -> is_Some (m !! x)) -> (size (foldr delete m l) + length l = size m)%nat.
  Proof.
    induction l as [|x l IH]; intros Hnd Hin; cbn; [lia|]. apply NoDup_cons in Hnd as [Hx Hnd].
    assert (is_Some (foldr delete m l !! x)) as Hs.
    { rewrite foldr_delete_lookup. rewrite decide_False by done. apply Hin. left. }
    rewrite map_size_delete_Some by done. specialize (IH Hnd).
    assert (size (foldr delete m l) <> 0%nat).
    { intros H0. apply map_size_empty_inv in H0. rewrite H0, lookup_empty in Hs. by destruct Hs. }
    rewrite <- IH; [lia|]. intros y Hy. apply Hin. by right.
  Qed.
  Lemma collect_size W a r : world_ok W -> pending_ok a ->
    (length (collect_pending_children E W a r).2 + size (ac_par (collect_pending_children E W a r).1) <= size (ac_par a))%nat.
  Proof.
    intros HW [P1 P2 P3 P4]. unfold collect_pending_children.
    destruct (ac_pend a !! r) as [cs|] eqn:Hr; cbn [fst snd ac_par with_maps length]; [|lia].
    assert (NoDup (w_iter W cs)) as Hnd by (rewrite (HW cs); apply NoDup_elements).
    pose proof (size_foldr_delete (w_iter W cs) (ac_par a) Hnd) as Hs.
    rewrite <- Hs.
    - assert (forall l : list H256, length (omap (get_signed_block hb (tab (ac_node a))) l) <= length l)%nat as Hl.
      { induction l as [|x l IH]; cbn; [lia|]. destruct (get_signed_block _ _ _); cbn; lia. }
      specialize (Hl (w_iter W cs)). lia.
    - intros x Hx. rewrite (HW cs), elem_of_elements in Hx. apply P3. eauto.
  Qed.

  (** *** With a rank on hashes *)
  Context (rank : H256 -> N).
  Definition ranked (t : Tables) : Prop := forall x h, t_headers t !! x = Some h -> rank (h_parent h) < rank x.
  Lemma parent_rank t c p : ranked t -> parent_of t c p -> rank p < rank c.
  Proof. intros Hr (h & Hh & <-). by apply Hr. Qed.
  Lemma anc_rank t m c : ranked t -> strict_anc t m c -> rank m < rank c.
  Proof.
    intros Hr. induction 1 as [c H|c p H _ IH]; [by eapply parent_rank|].
    pose proof (parent_rank _ _ _ Hr H). lia.
  Qed.

  Lemma discard_ok W a r : world_ok W -> pending_ok a -> ranked (tab (ac_node a)) ->
    exists a', discard_pending_subtree W a r = Ok a' /\ pending_ok a' /\ maps_only a a' /\
      (forall k cs, ac_pend a' !! k = Some cs <-> ac_pend a !! k = Some cs /\ k <> r /\ ~ under (ac_pend a) r k) /\
      (forall k m, ac_par a' !! k = Some m <-> ac_par a !! k = Some m /\ ~ under (ac_pend a) r k).
  Proof.
    intros HW HP Hrk. pose proof HP as [P1 P2 P3 P4]. unfold discard_pending_subtree.
    assert (forall p cs c, ac_pend a !! p = Some cs -> c ∈ cs -> rank p < rank c) as Hr1.
    { intros p cs c H1 H2. eapply parent_rank; [done|by eapply P2]. }
    assert (forall p p' cs cs' c, ac_pend a !! p = Some cs -> ac_pend a !! p' = Some cs' -> c ∈ cs -> c ∈ cs' -> p = p') as Hu.
    { intros p p' cs cs' c H1 H2 H3 H4. eapply parent_uniq; by eapply P2. }
    destruct (discard_spec W rank (size (ac_pend a)) a r HW Hr1 Hu (le_n _)) as (a' & Ha & Hp & Hq).
    exists a'. split; [done|]. pose proof (discard_maps _ _ _ _ _ Ha) as Hm. pose proof Hm as (Hn & _).
    split_and!; try done. split.
    - intros p cs H. apply Hp in H as [H _]. by eapply P1.
    - intros p cs c H Hc. apply Hp in H as [H _]. rewrite Hn. by eapply P2.
    - intros c. split.
      + intros [m H]. apply Hq in H as [H Hno]. destruct (proj1 (P3 c)) as (p & cs & H1 & H2); [by exists m|].
        exists p, cs. split; [|done]. apply Hp. split_and!; [done| |].
        * intros ->. apply Hno. by eapply un_one.
        * intros Hun. apply Hno. by eapply un_more.
      + intros (p & cs & H1 & H2). apply Hp in H1 as (H1 & Hne & Hno).
        destruct (proj2 (P3 c)) as [m Hm']; [by exists p, cs|]. exists m. apply Hq. split; [done|].
        intros Hun. apply under_last in Hun as (x & xs & Hx & Hx1 & Hx2).
        pose proof (Hu _ _ _ _ _ Hx1 H1 Hx2 H2) as ->. destruct Hx as [->|Hx]; done.
    - intros c m H. apply Hq in H as [H _]. rewrite Hn. by apply P4.
  Qed.

  (** *** Termination *)
  Definition cnt {A} (m : gmap H256 A) (x : H256) : nat :=
    size (filter (fun kv : H256 * A => rank kv.1 <= rank x) m).
  Lemma cnt_le {A} (m : gmap H256 A) x : (cnt m x <= size m)%nat.
  Proof. apply size_le. intros k [y Hy]. apply map_filter_lookup_Some in Hy as [Hy _]. by exists y. Qed.
  Lemma cnt_lt {A} (m : gmap H256 A) x y : is_Some (m !! x) -> rank y < rank x -> (cnt m y < cnt m x)%nat.
  Proof.
    intros [v Hv] Hlt. apply (size_lt _ _ x).
    - intros k [z Hz]. apply map_filter_lookup_Some in Hz as [Hz Hle]. cbn in Hle. exists z.
      apply map_filter_lookup_Some. cbn. split; [done|lia].
    - apply map_filter_lookup_None. right. intros z Hz. cbn. lia.
    - exists v. apply map_filter_lookup_Some. cbn. split; [done|lia].
  Qed.
  Lemma anc_trans t x y z : strict_anc t x y -> strict_anc t y z -> strict_anc t x z.
  Proof. intros H1. induction 1 as [c H|c p H _ IH]; eapply sa_more; eauto. Qed.
  Lemma lost_trans t m p : (m = p \/ strict_anc t m p) -> lost_above E t m -> lost_above E t p.
  Proof.
    intros Hm (r & h & Hr & H). exists r, h. split; [|done]. destruct Hm as [->|Hm]; [done|]. right.
    destruct Hr as [->|Hr]; [done|by eapply anc_trans].
  Qed.
  Lemma chase_ok a fuel r : pending_ok a -> ranked (tab (ac_node a)) -> (cnt (ac_par a) r <= fuel)%nat ->
    exists m, chase fuel (ac_par a) r = Ok m /\ ac_par a !! m = None /\
      (m = r \/ strict_anc (tab (ac_node a)) m r).
  Proof.
    intros HP Hrk. revert r. induction fuel as [|f IH]; intros r Hf; cbn [chase].
    - destruct (ac_par a !! r) as [r'|] eqn:Hr; [|exists r; split_and!; try done; by left].
      pose proof (anc_rank _ _ _ Hrk (po_anc _ HP _ _ Hr)) as Hlt.
      pose proof (cnt_lt (ac_par a) r r' ltac:(by exists r') Hlt). lia.
    - destruct (ac_par a !! r) as [r'|] eqn:Hr; [|exists r; split_and!; try done; by left].
      pose proof (po_anc _ HP _ _ Hr) as Han. pose proof (anc_rank _ _ _ Hrk Han) as Hlt.
      pose proof (cnt_lt (ac_par a) r r' ltac:(by exists r') Hlt).
      destruct (IH r') as (m & -> & Hm & Hc); [lia|]. exists m. split_and!; try done. right.
      destruct Hc as [->|Hc]; [done|]. by eapply anc_trans.
  Qed.

  (** What the walk returns and how it changes the maps: it may only add stored
      blocks whose parent has no state. *)
  Lemma walk_ok n fuel a r : n = ac_node a -> pending_ok a -> ranked (tab n) -> (cnt (t_headers (tab n)) r <= fuel)%nat ->
    match walk_up E fuel n a r with
    | Ok (a', x) =>
        pending_ok a' /\
        (forall k c, (exists cs, ac_pend a !! k = Some cs /\ c ∈ cs) -> exists cs, ac_pend a' !! k = Some cs /\ c ∈ cs) /\
        (forall k c, (exists cs, ac_pend a' !! k = Some cs /\ c ∈ cs) ->
           (exists cs, ac_pend a !! k = Some cs /\ c ∈ cs) \/ has_state (tab n) k = false /\ parent_of (tab n) c k) /\
        match x with
        | inl sb => exists y h, t_headers (tab n) !! y = Some h /\ has_state (tab n) (h_parent h) = true /\
                      get_signed_block hb (tab n) y = Some sb
        | inr y => t_headers (tab n) !! y = None /\ (y = r \/ strict_anc (tab n) y r)
        end
    | Err _ => False
    | Panic => lost_above E (tab n) r
    end.
  Proof.
    intros Hn HP Hrk. revert a r Hn HP. induction fuel as [|f IH]; intros a r Hn HP Hf; cbn [walk_up].
    - destruct (get_header (tab n) r) as [h|] eqn:Hh; unfold get_header in Hh.
      2:{ split_and!; try done; [intros; by left|by left]. }
      pose proof (cnt_lt (t_headers (tab n)) r (h_parent h) ltac:(by exists h) (Hrk _ _ Hh)). lia.
    - destruct (get_header (tab n) r) as [h|] eqn:Hh; unfold get_header in Hh.
      2:{ split_and!; try done; [intros; by left|by left]. }
      pose proof (cnt_lt (t_headers (tab n)) r (h_parent h) ltac:(by exists h) (Hrk _ _ Hh)) as Hlt.
      destruct (has_state (tab n) (h_parent h)) eqn:Hs.
      { destruct (get_signed_block hb (tab n) r) as [sb|] eqn:Hg; [|exists r, h; split_and!; try done; by left].
        split_and!; try done; [intros; by left|]. by exists r, h. }
      assert (parent_of (tab n) r (h_parent h)) as Hpar by (by exists h).
      pose proof (register_ok a r (h_parent h) (h_parent h)) as Hreg. rewrite <- Hn in Hreg.
      specialize (Hreg HP Hpar ltac:(by apply sa_one)).
      fold (registered a r (h_parent h) (h_parent h)).
      specialize (IH (registered a r (h_parent h) (h_parent h)) (h_parent h)). cbn [ac_node registered with_maps] in IH.
      specialize (IH Hn Hreg ltac:(lia)).
      destruct (walk_up E f n (registered a r (h_parent h) (h_parent h)) (h_parent h)) as [[a' x]|e|]; [|done|].
      2:{ apply (lost_trans (tab n) (h_parent h)); [|done]. right. by apply sa_one. }
      destruct IH as (H1 & H2 & H3 & H4). split_and!; [done| | |].
      + intros k c Hk. apply H2. apply register_set. by right.
      + intros k c Hk. destruct (H3 _ _ Hk) as [Hin|?]; [|by right].
        apply register_set in Hin as [[-> ->]|Hin]; [by right|by left].
      + destruct x as [sb|y]; [done|]. destruct H4 as [H4 H5]. split; [done|]. right.
        destruct H5 as [->|H5]; [by apply sa_one|]. by eapply sa_more.
  Qed.
End Maps.
