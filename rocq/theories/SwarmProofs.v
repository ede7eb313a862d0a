From Verif Require Import SwarmSpec.
Local Open Scope N_scope.

Lemma point_shows ms e : shows ms e (point ms e).
Proof.
  unfold shows, point. cbn. split; [done|]. split; [done|]. split; [apply Z.ltb_lt|]. rewrite N2Z.inj_mul. change (Z.of_N 2) with 2%Z.
  destruct (Z.le_gt_cases (se_offset e) 0) as [H|H]; [left; split; [done|]; lia|]. destruct (Z.le_gt_cases (se_offset e) (2 * Z.of_N ms)) as [H'|H'].
  - right. left. lia.
  - right. right. lia.
Qed.
Lemma shows_unique ms e p : shows ms e p -> p = point ms e.
Proof.
  destruct p as [t o b s]. unfold shows, point. cbn. rewrite N2Z.inj_mul. change (Z.of_N 2) with 2%Z. intros (-> & -> & Hb & Ho). f_equal.
  - lia.
  - destruct (Z.ltb_spec (se_offset e) 0) as [H|H]; [by apply Hb|]. destruct b; [|done]. specialize (proj1 Hb eq_refl). lia.
Qed.

Definition pts ms n l : list Pt := map (point ms) (of_node n l).
Lemma of_node_app n l k : of_node n (l ++ k) = (of_node n l ++ of_node n k)%list.
Proof. induction l as [|e l IH]; [done|]. cbn. destruct (se_topic e); try done; destruct (se_node e =? n); cbn; rewrite ?IH; done. Qed.
Lemma s_events_app l k : s_events (l ++ k) = (s_events l ++ s_events k)%list.
Proof. induction l as [|[e| |n] l IH]; cbn; rewrite ?IH; done. Qed.
Lemma lanes0 nodes n : foldr (fun n m => <[n := []]> m) (∅ : gmap N (list Pt)) nodes !! n = if decide (n ∈ nodes) then Some [] else None.
Proof.
  induction nodes as [|x nodes IH]; cbn [foldr].
  - rewrite decide_False; [apply lookup_empty|]. intros H. by apply elem_of_nil in H.
  - destruct (decide (n = x)) as [->|Hn].
    + rewrite lookup_insert, decide_True; [done|]. by left.
    + rewrite lookup_insert_ne by done. rewrite IH. apply decide_ext. rewrite elem_of_cons. tauto.
Qed.

(** [arr] is what is left of the points [P]: the last ones; those missing are beyond the cap or
    too old for the window [w]. *)
Definition rest (w mx : N) (P arr : list Pt) : Prop :=
  exists k, arr = drop k P /\ (length arr <= 2000)%nat /\
    forall j p, P !! j = Some p -> (j < k)%nat -> (j + 2000 < length P)%nat \/ w <= mx - pt_slot p.
Lemma rest_mono w mx mx' P arr : mx <= mx' -> rest w mx P arr -> rest w mx' P arr.
Proof. intros Hm (k & H1 & H2 & H3). exists k. split; [done|]. split; [done|]. intros j p Hp Hj. destruct (H3 j p Hp Hj); [by left|right; lia]. Qed.
Lemma rest_push w mx P arr p : rest w mx P arr ->
  rest w mx (P ++ [p]) (if MAX_POINTS_PER_NODE <? lenN (arr ++ [p]) then drop (N.to_nat (lenN (arr ++ [p]) - MAX_POINTS_PER_NODE)) (arr ++ [p]) else arr ++ [p]).
Proof.
  intros (k & -> & Hl & H). unfold MAX_POINTS_PER_NODE, lenN. rewrite app_length. cbn [length].
  assert (exists k', (k' <= length P)%nat /\ drop k P = drop k' P /\ forall j q, P !! j = Some q -> (j < k')%nat -> (j + 2000 < length P)%nat \/ w <= mx - pt_slot q) as (k' & Hk & He & H').
  { destruct (Nat.le_gt_cases k (length P)) as [Hk|Hk]; [by exists k|]. exists (length P). split; [done|]. split; [by rewrite !drop_ge by lia|].
    intros j q Hq Hj. apply (H j q Hq). lia. }
  rewrite He in *. clear He H k. assert (length (drop k' P) = (length P - k')%nat) as Hd by apply drop_length. rewrite Hd in *.
  assert (drop k' P ++ [p] = drop k' (P ++ [p]))%list as -> by (by rewrite drop_app_le by lia).
  destruct (N.ltb_spec 2000 (N.of_nat (length P - k' + 1))) as [Hc|Hc].
  - rewrite drop_drop. exists (k' + N.to_nat (N.of_nat (length P - k' + 1) - 2000))%nat. split; [done|]. split.
    + rewrite drop_length, app_length. cbn. lia.
    + intros j q Hq Hj. rewrite app_length. cbn. destruct (Nat.lt_ge_cases j k') as [Hlt|Hge].
      * rewrite lookup_app_l in Hq by lia. destruct (H' j q Hq Hlt); [left; lia|by right].
      * left. lia.
  - exists k'. split; [done|]. split; [rewrite drop_length, app_length; cbn; lia|]. intros j q Hq Hj. rewrite app_length. cbn.
    rewrite lookup_app_l in Hq by lia. destruct (H' j q Hq Hj); [left; lia|by right].
Qed.
Lemma drop_aged_spec mx w' l : exists m, drop_aged mx w' l = drop m l /\ forall j p, l !! j = Some p -> (j < m)%nat -> w' <= mx - pt_slot p.
Proof.
  induction l as [|q l (m & He & Hm)]; [exists 0%nat; split; [done|]; intros j p _ Hj; lia|]. cbn [drop_aged]. destruct (N.leb_spec w' (mx - pt_slot q)) as [Hq|Hq].
  - exists (S m). split; [done|]. intros [|j] p Hp Hj; [by injection Hp as <-|]. apply (Hm j p Hp). lia.
  - exists 0%nat. split; [done|]. intros j p _ Hj. lia.
Qed.
Lemma rest_prune w w' mx P arr : w <= w' -> rest w mx P arr -> rest w mx P (drop_aged mx w' arr).
Proof.
  intros Hw (k & -> & Hl & H). destruct (drop_aged_spec mx w' (drop k P)) as (m & -> & Hm). rewrite drop_drop. exists (k + m)%nat.
  split; [done|]. split; [rewrite drop_length in *; lia|]. intros j p Hp Hj. destruct (Nat.lt_ge_cases j k) as [Hlt|Hge]; [by apply H|].
  right. etrans; [exact Hw|]. apply (Hm (j - k)%nat); [|lia]. rewrite lookup_drop. by replace (k + (j - k))%nat with j by lia.
Qed.

Definition sinv ms nodes (w : N) (E : list SEv) (s : Swarm) : Prop :=
  (forall n, n ∉ nodes -> sw_lanes s !! n = None) /\
  (forall n, n ∈ nodes -> exists arr, sw_lanes s !! n = Some arr /\ rest w (sw_max s) (pts ms n E) arr) /\
  Forall (fun x => s_counted nodes x -> se_slot x <= sw_max s) E /\ (sw_max s = 0 \/ exists x, x ∈ E /\ s_counted nodes x /\ se_slot x = sw_max s).
Lemma swarm_inv ms nodes w0 w ops : w <= w0 -> (forall n, SWindow n ∈ ops -> w <= N.max 1 n) ->
  sinv ms nodes w (s_events ops) (swarm_run ms (swarm0 nodes w0) ops) /\ w <= sw_window (swarm_run ms (swarm0 nodes w0) ops).
Proof.
  intros Hw0. induction ops as [|o ops IH] using rev_ind; intros Hws.
  - split; [|done]. split; [|split; [|split]].
    + intros n Hn. cbn. rewrite lanes0. by rewrite decide_False.
    + intros n Hn. exists []. cbn. rewrite lanes0, decide_True by done. split; [done|]. exists 0%nat. split; [done|]. split; [cbn; lia|]. intros j p _ Hj. lia.
    + constructor.
    + by left.
  - destruct IH as [(H1 & H2 & H3 & H4) Hw]. { intros n Hn. apply Hws, elem_of_app. by left. }
    unfold swarm_run in *. rewrite foldl_app, s_events_app. cbn [foldl]. set (s := foldl (swarm_op ms) (swarm0 nodes w0) ops) in *. set (E := s_events ops) in *.
    destruct o as [e| |n]; cbn [swarm_op s_events].
    + assert (~ s_counted nodes e -> (forall n, n ∈ nodes -> pts ms n (E ++ [e]) = pts ms n E) -> sinv ms nodes w (E ++ [e]) s) as Hskip.
      { intros Hc Hp. split; [done|]. split; [|split].
        - intros n Hn. rewrite Hp by done. by apply H2.
        - apply Forall_app. split; [done|]. constructor; [done|constructor].
        - destruct H4 as [H4|(x & Hx & H4)]; [by left|right]. exists x. split; [|done]. apply elem_of_app. by left. }
      unfold swarm_add. destruct (decide (se_topic e = SOther)) as [Ho|Ho].
      { rewrite Ho. split; [|done]. apply Hskip; [by intros [_ ?]|]. intros n Hn. unfold pts. rewrite of_node_app. cbn. rewrite Ho. by rewrite app_nil_r. }
      assert (forall A (a b : A), match se_topic e with SOther => a | _ => b end = b) as Hm by (intros A a b; revert Ho; by destruct (se_topic e)). rewrite Hm.
      destruct (decide (se_node e ∈ nodes)) as [Hn|Hn].
      * destruct (H2 _ Hn) as (arr & Harr & Hr). rewrite Harr. split; [|done]. set (mx := if sw_max s <? se_slot e then se_slot e else sw_max s).
        assert (sw_max s <= mx /\ se_slot e <= mx) as [Hmx1 Hmx2] by (unfold mx; destruct (N.ltb_spec (sw_max s) (se_slot e)); lia).
        split; [|split; [|split]]; cbn [sw_lanes sw_max].
        -- intros n Hn'. rewrite lookup_insert_ne by (by intros <-). by apply H1.
        -- intros n Hn'. unfold pts. rewrite of_node_app, map_app. cbn [of_node]. rewrite Hm. destruct (N.eqb_spec (se_node e) n) as [<-|Hne].
           ++ rewrite lookup_insert. eexists. split; [done|]. cbn [map]. apply rest_push. exact (rest_mono _ _ _ _ _ Hmx1 Hr).
           ++ rewrite lookup_insert_ne by done. destruct (H2 n Hn') as (arr' & Ha' & Hr'). exists arr'. split; [done|]. cbn [map]. rewrite app_nil_r. exact (rest_mono _ _ _ _ _ Hmx1 Hr').
        -- apply Forall_app. split.
           ++ eapply Forall_impl; [exact H3|]. cbn. intros x Hx Hc. specialize (Hx Hc). lia.
           ++ constructor; [done|constructor].
        -- unfold mx. destruct (N.ltb_spec (sw_max s) (se_slot e)).
           ++ right. exists e. split; [apply elem_of_app; right; by left|]. done.
           ++ destruct H4 as [H4|(x & Hx & H4)]; [by left|right]. exists x. split; [|done]. apply elem_of_app. by left.
      * rewrite (H1 _ Hn). split; [|done]. apply Hskip; [by intros [? _]|]. intros n Hn'. unfold pts. rewrite of_node_app. cbn [of_node]. rewrite Hm.
        destruct (N.eqb_spec (se_node e) n) as [<-|_]; [done|]. by rewrite app_nil_r.
    + rewrite app_nil_r. split; [|done]. split; [|split; [|done]]; cbn [sw_lanes sw_max swarm_prune].
      * intros n Hn. rewrite lookup_fmap, H1 by done. done.
      * intros n Hn. destruct (H2 n Hn) as (arr & Ha & Hr). exists (drop_aged (sw_max s) (sw_window s) arr). rewrite lookup_fmap, Ha. split; [done|]. by apply rest_prune.
    + rewrite app_nil_r. split; [done|]. cbn. apply Hws, elem_of_app. right. by left.
Qed.
Lemma filter_drop {A} (f : A -> bool) m : forall l, (forall j p, l !! j = Some p -> (j < m)%nat -> f p = false) -> List.filter f (drop m l) = List.filter f l.
Proof.
  induction m as [|m IH]; intros l H; [by rewrite drop_0|]. destruct l as [|x l]; [done|]. cbn [drop List.filter]. rewrite (H 0%nat x eq_refl) by lia.
  apply IH. intros j p Hp Hj. apply (H (S j) p Hp). lia.
Qed.
Lemma filter_map_shows ms (f : Pt -> bool) (P : SEv -> Prop) `{forall e, Decision (P e)} l : (forall e, e ∈ l -> f (point ms e) = true <-> P e) ->
  Forall2 (shows ms) (filter P l) (List.filter f (map (point ms) l)).
Proof.
  induction l as [|e l IH]; intros Hf; [constructor|]. cbn [map List.filter]. rewrite filter_cons.
  assert (Forall2 (shows ms) (filter P l) (List.filter f (map (point ms) l))) as IH'. { apply IH. intros x Hx. apply Hf. by right. }
  destruct (f (point ms e)) eqn:E.
  - rewrite decide_True by (apply Hf; [by left|done]). constructor; [apply point_shows|done].
  - rewrite decide_False; [done|]. intros Hp. apply Hf in Hp; [by rewrite E in Hp|by left].
Qed.
Lemma of_node_elem n l e : e ∈ of_node n l <-> e ∈ l /\ se_node e = n /\ se_topic e <> SOther.
Proof.
  induction l as [|x l IH]; cbn [of_node].
  - split; [intros H; by apply elem_of_nil in H|intros [H _]; by apply elem_of_nil in H].
  - rewrite elem_of_cons. destruct (decide (se_topic x = SOther)) as [Ho|Ho].
    + rewrite Ho. rewrite IH. split; [tauto|]. intros ([->|H1] & H2 & H3); [done|tauto].
    + assert (forall A (a b : A), match se_topic x with SOther => a | _ => b end = b) as Hm by (intros A a b; revert Ho; by destruct (se_topic x)). rewrite Hm.
      destruct (N.eqb_spec (se_node x) n) as [Hn|Hn]; rewrite ?elem_of_cons, IH; [naive_solver|]. split; [tauto|]. intros ([->|H1] & H2 & H3); [done|tauto].
Qed.
Lemma lane_pf ms nodes w0 ops n : let s := swarm_run ms (swarm0 nodes w0) ops in let w := sw_window s in let E := s_events ops in
  n ∈ nodes -> w <= w0 -> (forall m, SWindow m ∈ ops -> w <= N.max 1 m) ->
  Forall2 (shows ms) (filter (s_recent nodes E w) (last_of 2000 (of_node n E))) (lane s n).
Proof.
  intros s w E Hn Hw0 Hws. destruct (swarm_inv ms nodes w0 w ops Hw0 Hws) as [(_ & H2 & H3 & H4) _]. fold s in H2, H3, H4. fold E in H2, H3, H4.
  destruct (H2 n Hn) as (arr & Ha & (k & -> & Hl & Hk)). unfold lane. rewrite Ha. change (default [] (Some (drop k (pts ms n E)))) with (drop k (pts ms n E)). change (sw_window s) with w.
  assert (List.filter (fun p => negb (w <=? sw_max s - pt_slot p)) (drop k (pts ms n E)) =
          List.filter (fun p => negb (w <=? sw_max s - pt_slot p)) (map (point ms) (last_of 2000 (of_node n E)))) as ->.
  { unfold last_of. assert (map (point ms) (drop (length (of_node n E) - 2000) (of_node n E)) = drop (length (pts ms n E) - 2000) (pts ms n E)) as ->.
    { unfold pts. rewrite map_length. apply (fmap_drop (point ms)). }
    set (P := pts ms n E) in *. rewrite drop_length in Hl.
    assert (drop k P = drop (k - (length P - 2000)) (drop (length P - 2000) P)) as ->. { rewrite drop_drop. f_equal. lia. }
    apply filter_drop. intros j p Hp Hj. rewrite lookup_drop in Hp. destruct (Hk _ p Hp) as [Hx|Hx]; [lia|lia|].
    apply negb_false_iff, N.leb_le. done. }
  apply filter_map_shows. intros e He. cbn [point pt_slot].
  assert (e ∈ of_node n E) as He'. { unfold last_of in He. apply elem_of_list_lookup in He as [j Hj]. rewrite lookup_drop in Hj. by eapply elem_of_list_lookup_2. }
  apply of_node_elem in He' as (He1 & He2 & He3). unfold s_recent. rewrite Forall_forall in H3 |- *. rewrite negb_true_iff, N.leb_gt.
  assert (s_counted nodes e) as Hce. { split; [by rewrite He2|done]. }
  specialize (H3 e He1 Hce) as Hem. split.
  - intros Hlt x Hx Hc. specialize (H3 x Hx Hc). lia.
  - intros H. specialize (H e He1 Hce) as Hpos. destruct H4 as [->|(x & Hx & Hc & <-)]; [lia|]. specialize (H x Hx Hc). lia.
Qed.
