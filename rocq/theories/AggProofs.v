(** Proofs about aggregation jobs (C38, C39). *)
From Verif Require Export AggSpec BuilderNode.
From stdpp Require Import sorting.
Local Open Scope N_scope.

(** *** Choice of children *)
Lemma swap_remove_perm {A} (l : list A) i p :
  l !! i = Some p -> exists l', swap_remove i l = Ok l' /\ l ≡ₚ p :: l'.
Proof.
  intros Hi. pose proof (lookup_lt_Some _ _ _ Hi) as Hlt.
  rewrite <- (take_drop_middle l i p Hi). set (pre := take i l). set (suf := drop (S i) l).
  assert (i = length pre) as Hl by (unfold pre; rewrite take_length; lia). rewrite Hl.
  destruct (swap_remove_mid pre suf p) as (suf' & -> & Hp). eexists. split; [done|].
  rewrite Hp. symmetry. apply Permutation_middle.
Qed.

Section Select.
  Context (seed : N -> Prop).
  Notation fresh pre p := (fun v => ~ seed v /\ adds pre p v).

  Lemma count_fresh (cov : gset N) pre p :
    (forall v, v ∈ cov <-> seed v \/ covered_by pre v) -> counts (count_new cov p) (fresh pre p).
  Proof.
    intros Hc. unfold count_new.
    exists (List.filter (fun v => negb (bool_decide (v ∈ cov))) (indices p)).
    split; [apply NoDup_ListNoDup, List.NoDup_filter, NoDup_ListNoDup, validator_indices_NoDup|]. split; [|done].
    intros v. rewrite elem_of_list_In, filter_In, <- elem_of_list_In, indices_spec. unfold adds.
    rewrite negb_true_iff, bool_decide_eq_false, Hc. naive_solver.
  Qed.

  Lemma select_set_spec fuel sel cov l :
    (length l <= fuel)%nat -> (forall v, v ∈ cov <-> seed v \/ covered_by sel v) ->
    exists more cov', select_set fuel sel cov l = Ok (sel ++ more, cov') /\
      greedy_from_list seed sel l more /\
      (forall v, v ∈ cov' <-> seed v \/ covered_by (sel ++ more) v) /\
      (length sel <= 2 -> length (sel ++ more) <= 2)%nat /\
      ((length (sel ++ more) < 2)%nat -> exhausted seed (sel ++ more) l).
  Proof.
    revert sel cov l. induction fuel as [|f IH]; intros sel cov l Hf Hcov.
    - assert (l = []) as -> by (destruct l; [done|cbn in Hf; lia]).
      exists [], cov. rewrite app_nil_r. split; [by cbn [select_set]; destruct (_ <=? _)%nat|].
      split_and!; [split|done|done|].
      + by exists [].
      + intros k p Hk. by rewrite lookup_nil in Hk.
      + intros k p q n m Hk. by rewrite lookup_nil in Hk.
      + intros _ p v Hp. by inversion Hp.
    - assert (forall A : Prop, (A -> exhausted seed (sel ++ []) l) ->
        greedy_from_list seed sel l [] /\ (forall v, v ∈ cov <-> seed v \/ covered_by (sel ++ []) v) /\
        (length sel <= 2 -> length (sel ++ []) <= 2)%nat /\ (A -> exhausted seed (sel ++ []) l)) as Hstop.
      { intros A HA. rewrite app_nil_r in *. split_and!; [split|done|done|done].
        + by exists l.
        + intros k p Hk. by rewrite lookup_nil in Hk.
        + intros k p q n m Hk. by rewrite lookup_nil in Hk. }
      cbn [select_set]. change MAX_AGGREGATION_CHILDREN with 2%nat.
      destruct (Nat.leb_spec 2 (length sel)) as [Hfull|Hroom].
      { exists [], cov. split; [by rewrite app_nil_r|]. apply Hstop. rewrite app_nil_r. lia. }
      destruct l as [|x0 l0]; [exists [], cov; split; [by rewrite app_nil_r|]; apply Hstop; intros _ p v Hp; by inversion Hp|].
      set (l := x0 :: l0) in *.
      set (count := fun i => match l !! i with Some p => count_new cov p | None => 0 end).
      destruct (last_max count (seq 0 (length l))) as [i|] eqn:Hm.
      2:{ apply last_max_None in Hm. cbn in Hm. discriminate. }
      apply last_max_spec in Hm as [Hi Hmax]. apply elem_of_seq in Hi.
      destruct (lookup_lt_is_Some_2 l i ltac:(lia)) as [p Hp]. rewrite Hp.
      assert (count i = count_new cov p) as Hci by (unfold count; by rewrite Hp).
      pose proof (count_fresh cov sel p Hcov) as Hcp.
      assert (forall q n, q ∈ l -> counts n (fresh sel q) -> n <= count_new cov p) as Hbest.
      { intros q n Hq Hn. apply elem_of_list_lookup in Hq as [j Hj].
        rewrite (counts_unique _ _ _ Hn (count_fresh cov sel q Hcov)). rewrite <- Hci.
        specialize (Hmax j). unfold count in Hmax at 1. rewrite Hj in Hmax. apply Hmax, elem_of_seq.
        apply lookup_lt_Some in Hj. lia. }
      cbv beta iota. rewrite <- ?Hci.
      destruct (N.eqb_spec (count i) 0) as [Hz|Hz].
      { exists [], cov. split; [by rewrite app_nil_r|]. apply Hstop. rewrite app_nil_r. intros _ q v Hq Hv.
        destruct (decide (v ∈ cov)) as [Hin|Hout]; [by apply Hcov|]. exfalso.
        specialize (Hbest q _ Hq (count_fresh cov sel q Hcov)).
        assert (count_new cov q = 0) as Hq0 by lia.
        apply (counts_zero _ _ (count_fresh cov sel q Hcov)) with (v := v) in Hq0.
        apply Hq0. rewrite Hcov in Hout. split; [tauto|]. split; [done|]. tauto. }
      destruct (swap_remove_perm l i p Hp) as (rest & -> & Hperm). cbn [rbind].
      destruct (IH (sel ++ [p]) (cov ∪ voters p) rest) as (more & cov' & HS & [G1 G2 G3] & Hc' & Hlen & Hex).
      { apply Permutation_length in Hperm. cbn in Hperm, Hf. lia. }
      { intros v. rewrite elem_of_union, Hcov, voters_spec, covered_app, covered_cons. unfold covered_by at 3.
        split; [naive_solver|]. intros [H|[H|[H|(q & Hq & _)]]]; [tauto|tauto|tauto|]. by inversion Hq. }
      rewrite <- app_assoc in HS, Hc', Hlen, Hex. cbn [app] in HS, Hc', Hlen, Hex.
      exists (p :: more), cov'. split; [done|]. split_and!; [split| | |].
      + destruct G1 as [r Hr]. exists r. by rewrite Hperm, Hr.
      + intros [|k] q; cbn [lookup list_lookup].
        * intros [= <-]. cbn [take]. rewrite app_nil_r. rewrite Hci in Hz.
          destruct Hcp as (w & K1 & K2 & K3). destruct w as [|v w]; [by rewrite <- K3 in Hz|].
          exists v. apply K2. left.
        * intros Hk. destruct (G2 k q Hk) as (v & Hv1 & Hv2). exists v. split; [done|].
          rewrite <- app_assoc in Hv2. exact Hv2.
      + intros [|k] x q n m; cbn [lookup list_lookup].
        * intros [= <-]. cbn [take]. rewrite app_nil_r. intros Hq Hn Hm.
          rewrite (counts_unique _ _ _ Hm Hcp). by apply Hbest with (q := q).
        * intros Hk Hq. specialize (G3 k x q n m Hk). rewrite <- app_assoc in G3. cbn [take app] in *.
          intros Hn Hm. destruct (decide (q ∈ rest)) as [Hin|Hout]; [by apply G3|].
          rewrite Hperm in Hq. apply elem_of_cons in Hq as [->|Hq]; [|done].
          destruct Hn as (w & K1 & K2 & K3). destruct w as [|v w]; [rewrite <- K3; apply N.le_0_l|].
          exfalso. destruct (proj1 (K2 v) (elem_of_list_here _ _)) as [_ [Hv Hnc]]. apply Hnc. exists p. split; [|done].
          apply elem_of_app. right. left.
      + exact Hc'.
      + intros H. apply Hlen. rewrite app_length. cbn. lia.
      + intros H q v Hq Hv. rewrite Hperm in Hq. apply elem_of_cons in Hq as [->|Hq]; [|by apply (Hex H q)].
        right. exists p. split; [|done]. apply elem_of_app. right. left.
  Qed.
End Select.

Lemma C38_children_pf new known (seed : gset N) :
  exists sn sk cov, select_proofs_greedily new known seed = Ok (sn ++ sk, cov) /\
    greedy_from_list (fun v => v ∈ seed) [] new sn /\ greedy_from_list (fun v => v ∈ seed) sn known sk /\
    (length (sn ++ sk) <= 2)%nat /\
    (sk <> [] -> exhausted (fun v => v ∈ seed) sn new) /\
    ((length (sn ++ sk) < 2)%nat -> exhausted (fun v => v ∈ seed) (sn ++ sk) (new ++ known)) /\
    (forall v, v ∈ cov <-> v ∈ seed \/ covered_by (sn ++ sk) v).
Proof.
  destruct (select_set_spec (fun v => v ∈ seed) (length new) [] seed new) as (sn & c1 & H1 & G1 & C1 & L1 & X1);
    [done| |].
  { intros v. unfold covered_by. split; [tauto|]. intros [H|(q & Hq & _)]; [done|by inversion Hq]. }
  cbn [app] in *.
  destruct (select_set_spec (fun v => v ∈ seed) (length known) sn c1 known) as (sk & c2 & H2 & G2 & C2 & L2 & X2);
    [done|done|].
  exists sn, sk, c2. unfold select_proofs_greedily. rewrite H1. cbn [rbind fst snd]. rewrite H2.
  split; [done|]. split; [done|]. split; [done|]. split; [apply L2, L1; cbn; lia|].
  assert (length sn <= 2)%nat as Hsn by (apply L1; cbn; lia).
  split; [|split; [|done]].
  - intros Hne. destruct (decide (length sn < 2)%nat) as [Hlt|]; [by apply X1|]. exfalso.
    assert (length (sn ++ sk) <= 2)%nat as Hle by (by apply L2). rewrite app_length in Hle.
    destruct sk; [done|]. cbn in Hle. lia.
  - intros Hlt p v Hp Hv. apply elem_of_app in Hp as [Hp|Hp]; [|by apply (X2 Hlt p)].
    rewrite app_length in Hlt. destruct (X1 ltac:(lia) p v Hp Hv) as [H|H]; [by left|right].
    apply covered_app. by left.
Qed.

(** *** Jobs *)
Section Job.
  Context (E : Env).

  Lemma usable_spec vals v k : usable_key E vals v = Some k <-> has_key E vals v k.
  Proof.
    unfold usable_key, has_key. rewrite getN_lookup. destruct (vals !! N.to_nat v) as [x|].
    - split.
      + destruct (e_key_ok E (v_att_key x)) eqn:Hk; [|done]. intros [= <-]. eauto.
      + intros (y & [= <-] & <- & ->). done.
    - split; [done|]. by intros (y & ? & _).
  Qed.
  Lemma has_key_range vals v k : has_key E vals v k -> v < lenN vals.
  Proof. intros (x & Hx & _). apply lookup_lt_Some in Hx. unfold lenN. lia. Qed.
  Lemma has_key_fun vals v k k' : has_key E vals v k -> has_key E vals v k' -> k = k'.
  Proof. intros (x & H1 & H2 & _) (y & H3 & H4 & _). congruence. Qed.

  Lemma omap_length_all {A B} (f : A -> option B) (l : list A) :
    (length (omap f l) <= length l)%nat /\
    (length (omap f l) = length l -> forall x, x ∈ l -> is_Some (f x)).
  Proof.
    induction l as [|a l [IH1 IH2]]; [split; [done|intros _ x Hx; by inversion Hx]|].
    cbn. destruct (f a) as [b|] eqn:Ha; cbn; (split; [lia|]).
    - intros H x Hx. apply elem_of_cons in Hx as [->|Hx]; [by rewrite Ha|]. apply IH2; [lia|done].
    - intros H. lia.
  Qed.
  Lemma usable_keys vals (l : list N) :
    (forall v, v ∈ l -> exists k, has_key E vals v k) ->
    omap (usable_key E vals) l = omap (fun v => v_att_key <$> vals !! N.to_nat v) l.
  Proof.
    induction l as [|v l IH]; intros H; [done|]. cbn.
    destruct (H v (elem_of_list_here _ _)) as [k Hk]. pose proof (proj2 (usable_spec _ _ _) Hk) as ->.
    destruct Hk as (x & -> & <- & _). cbn. f_equal. apply IH. intros w Hw. apply H. by right.
  Qed.

  Lemma raw_fold vals (sigs : list (N * N)) (m : gmap N (N * N)) :
    let m' := fold_left (fun m s => match usable_key E vals s.1 with Some k => <[s.1 := (k, s.2)]> m | None => m end) sigs m in
    (forall v k s, m' !! v = Some (k, s) -> m !! v = Some (k, s) \/ ((v, s) ∈ sigs /\ has_key E vals v k)) /\
    (forall v, is_Some (m !! v) \/ (exists s k, (v, s) ∈ sigs /\ has_key E vals v k) -> is_Some (m' !! v)).
  Proof.
    revert m. induction sigs as [|[v0 s0] sigs IH]; intros m; cbn [fold_left].
    - split; [by left|]. intros v [H|(s & k & H & _)]; [done|by inversion H].
    - destruct (IH (match usable_key E vals v0 with Some k => <[v0 := (k, s0)]> m | None => m end)) as [I1 I2].
      cbn [fst snd] in *. split.
      + intros v k s H. apply I1 in H as [H|[H Hk]]; [|right; split; [by right|done]].
        destruct (usable_key E vals v0) as [k0|] eqn:Hu; [|by left].
        destruct (decide (v = v0)) as [->|Hne].
        * rewrite lookup_insert in H. injection H as <- <-. right. split; [left|]. by apply usable_spec.
        * rewrite lookup_insert_ne in H by done. by left.
      + intros v H. apply I2. destruct H as [H|(s & k & Hin & Hk)].
        * left. destruct (usable_key E vals v0); [|done]. destruct (decide (v = v0)) as [->|];
            [by rewrite lookup_insert|by rewrite lookup_insert_ne].
        * apply elem_of_cons in Hin as [[= -> ->]|Hin]; [|right; eauto]. left.
          apply usable_spec in Hk as ->. by rewrite lookup_insert.
  Qed.
  Lemma raw_by_id_spec vals sigs :
    (forall v k s, raw_by_id E vals sigs !! v = Some (k, s) -> (v, s) ∈ sigs /\ has_key E vals v k) /\
    (forall v s k, (v, s) ∈ sigs -> has_key E vals v k -> is_Some (raw_by_id E vals sigs !! v)).
  Proof.
    destruct (raw_fold vals sigs ∅) as [H1 H2]. split.
    - intros v k s H. apply H1 in H as [H|H]; [by rewrite lookup_empty in H|done].
    - intros v s k Hin Hk. apply H2. right. eauto.
  Qed.

  Lemma resolve_children_spec vals l cs ids :
    resolve_child_pubkeys E vals l = (cs, ids) ->
    exists ps, sublist ps l /\ (forall p v, p ∈ ps -> takes_part v p -> exists k, has_key E vals v k) /\
      cs = map (fun p => (keys_of vals (pr_bits p), pr_bytes p)) ps /\ ids = concat (map indices ps).
  Proof.
    revert cs ids. induction l as [|p l IH]; intros cs ids; cbn [resolve_child_pubkeys].
    - intros [= <- <-]. exists []. split; [done|]. split; [|done]. intros p v H. by inversion H.
    - destruct (resolve_child_pubkeys E vals l) as [cs' ids'].
      destruct (IH _ _ eq_refl) as (ps & H1 & H2 & -> & ->).
      destruct (Nat.eqb_spec (length (omap (usable_key E vals) (indices p))) (length (indices p))) as [Heq|Hne].
      + pose proof (proj2 (omap_length_all (usable_key E vals) (indices p)) Heq) as Hall.
        assert (forall v, v ∈ indices p -> exists k, has_key E vals v k) as Hk.
        { intros v Hv. destruct (Hall v Hv) as [k Hk]. exists k. by apply usable_spec. }
        intros [= <- <-]. exists (p :: ps). split_and!.
        * by constructor.
        * intros q v Hq Hv. apply elem_of_cons in Hq as [->|Hq]; [|by eapply H2]. apply Hk. by apply indices_spec.
        * cbn [map]. f_equal. f_equal. unfold keys_of. by apply usable_keys.
        * done.
      + intros [= <- <-]. exists ps. split; [by constructor|]. done.
  Qed.
  Lemma concat_indices ps v : v ∈ concat (map indices ps) <-> covered_by ps v.
  Proof.
    rewrite elem_of_list_In, in_concat. unfold covered_by. split.
    - intros (x & Hx & Hv). apply in_map_iff in Hx as (p & <- & Hp). exists p. rewrite elem_of_list_In. split; [done|].
      apply indices_spec. by apply elem_of_list_In.
    - intros (p & Hp & Hv). exists (indices p). split; [apply in_map; by apply elem_of_list_In|].
      apply elem_of_list_In. by apply indices_spec.
  Qed.

  Context (iter_raw : list (N * (N * N)) -> list (N * (N * N))) (Hiter : forall l, iter_raw l ≡ₚ l).

  Lemma resolve_total vals d sigs new known : exists o, resolve_job E iter_raw vals d sigs new known = Ok o.
  Proof.
    unfold resolve_job.
    destruct (C38_children_pf new known (list_to_set (map fst (map_to_list (raw_by_id E vals sigs))))) as (sn & sk & cov & -> & _).
    cbn [rbind fst]. destruct (resolve_child_pubkeys E vals (sn ++ sk)) as [cs ids].
    destruct (_ && _); [eauto|]. destruct (_ && _); eauto.
  Qed.
  Lemma C39_job_pf vals d sigs new known j :
    resolve_job E iter_raw vals d sigs new known = Ok (Some j) -> good_job E vals d sigs (new ++ known) j.
  Proof.
    unfold resolve_job.
    destruct (C38_children_pf new known (list_to_set (map fst (map_to_list (raw_by_id E vals sigs)))))
      as (sn & sk & cov & -> & G1 & G2 & Hlen & _).
    cbn [rbind fst]. destruct (resolve_child_pubkeys E vals (sn ++ sk)) as [cs ids] eqn:Hc.
    apply resolve_children_spec in Hc as (ps & Hsub & Hkeys & -> & ->).
    destruct (raw_by_id_spec vals sigs) as [R1 R2]. set (raw := raw_by_id E vals sigs) in *.
    set (ids := concat (map indices ps)). set (kept := List.filter _ (iter_raw (map_to_list raw))).
    assert (forall x : N * (N * N), x ∈ kept <-> raw !! x.1 = Some x.2 /\ x.1 ∉ ids) as Hkept.
    { intros [v ks]. unfold kept. rewrite lfilter_elem. pose proof (Hiter (map_to_list raw)) as Hp. rewrite Hp.
      rewrite elem_of_map_to_list. cbn [fst snd]. by rewrite negb_true_iff, bool_decide_eq_false. }
    assert (NoDup (map fst kept)) as Hnd.
    { assert (NoDup (map fst (map_to_list raw))) as H by apply NoDup_fst_map_to_list.
      pose proof (Hiter (map_to_list raw)) as Hp. rewrite <- Hp in H.
      unfold kept. revert H. generalize (iter_raw (map_to_list raw)). clear.
      induction l as [|a l IH]; [done|]. cbn. intros H. apply NoDup_cons in H as [H1 H2].
      destruct (negb _); [|by apply IH]. cbn. apply NoDup_cons. split; [|by apply IH].
      intros Hin. apply H1. apply elem_of_map in Hin as (x & Hx & Hin). apply lfilter_elem in Hin as [Hin _].
      apply elem_of_map. by exists x. }
    rewrite !map_length.
    destruct ((length kept =? 0)%nat && (length ps <? 2)%nat) eqn:E1; [done|].
    destruct ((length ps =? 0)%nat && (length kept <=? 1)%nat) eqn:E2; [done|].
    intros H. apply Ok_inj in H. injection H as <-. split; cbn [jb_data jb_children jb_child_ids jb_raw_keys jb_raw_sigs jb_raw_ids jb_delete].
    - done.
    - exists ps. split; [|split; [done|apply concat_indices]]. intros p Hp. split; [|by intros v; apply Hkeys].
      assert (p ∈ sn ++ sk) as Hin by (eapply (elem_of_submseteq ps); [done|by apply sublist_submseteq]).
      destruct G1 as [[r1 Hr1] _ _]. destruct G2 as [[r2 Hr2] _ _]. rewrite elem_of_app, Hr1, Hr2, !elem_of_app.
      apply elem_of_app in Hin. tauto.
    - rewrite map_length. apply sublist_length in Hsub. lia.
    - intros i v Hi. rewrite list_lookup_fmap in Hi. destruct (kept !! i) as [[v' [k s]]|] eqn:Hk; [|done].
      cbn in Hi. injection Hi as ->. exists k, s. rewrite !list_lookup_fmap, Hk. split; [done|]. split; [done|].
      apply elem_of_list_lookup_2, Hkept in Hk as [Hk _]. cbn in Hk. by apply R1.
    - by rewrite !map_length.
    - done.
    - intros v Hv. apply elem_of_map in Hv as (x & -> & Hx). by apply Hkept in Hx as [_ Hx].
    - rewrite !map_length. apply andb_false_iff in E1, E2. rewrite Nat.eqb_neq, Nat.ltb_ge in E1.
      rewrite Nat.eqb_neq, Nat.leb_gt in E2. lia.
    - intros v s k Hin Hk. destruct (R2 v s k Hin Hk) as [ks Hks].
      destruct (decide (v ∈ ids)) as [|Hni]; [by right|left].
      apply elem_of_map. exists (v, ks). split; [done|]. by apply Hkept.
    - intros v r. rewrite elem_of_map. split.
      + intros ([v' s] & [= -> ->] & Hin). split; [done|]. by exists s.
      + intros [-> [s Hin]]. by exists (v, s).
  Qed.
End Job.
