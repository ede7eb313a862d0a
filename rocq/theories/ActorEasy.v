(** Proofs of the actor properties: sync status, tick schedule, events, early
    aggregation threshold. *)
From Verif Require Export ActorSpec.
From Coq Require String.

(** ** C40 *)
Lemma C40_update_pf cur head seen :
  (forall s, 8 < cur - seen -> sync_update s cur head seen = false) /\
  (cur - seen <= 8 -> (sync_update true cur head seen = false <-> cur - head <= 2)) /\
  (cur - seen <= 8 -> (sync_update false cur head seen = true <-> 4 < cur - head)).
Proof.
  unfold sync_update, NETWORK_STALL_THRESHOLD, SYNC_LAG_THRESHOLD, SYNC_HYSTERESIS_BAND.
  repeat split; intros; repeat match goal with
    | |- context [?a <? ?b] => destruct (N.ltb_spec a b)
    | H : context [?a <? ?b] |- _ => destruct (N.ltb_spec a b)
    end; try done; try lia.
Qed.

Lemma C40_no_flapping_pf s obs :
  Forall (fun o : N * N * N => o.1.1 - o.2 <= 8 /\ 3 <= o.1.1 - o.1.2 <= 4) obs -> sync_run s obs = s.
Proof.
  unfold sync_run. revert s. induction obs as [|[[c h] m] obs IH]; intros s H; [done|].
  apply Forall_cons in H as [[H1 H2] H]. cbn [fold_left fst snd] in *. rewrite IH by done.
  destruct (C40_update_pf c h m) as (_ & G1 & G2). specialize (G1 H1). specialize (G2 H1).
  destruct s.
  - destruct (sync_update true c h m); [done|]. pose proof (proj1 G1 eq_refl). lia.
  - destruct (sync_update false c h m); [|done]. pose proof (proj1 G2 eq_refl). lia.
Qed.

(** ** C43 *)
Lemma C43_wait_pf now genesis :
  let d := ms_until_next_interval now genesis in
  (genesis <= now -> 1 <= d <= 800) /\ boundary genesis (now + d) /\
  (forall t, boundary genesis t -> now < t -> now + d <= t).
Proof.
  unfold ms_until_next_interval, boundary. change MILLISECONDS_PER_INTERVAL with 800.
  destruct (N.ltb_spec now genesis) as [H|H]; cbn.
  - split; [lia|]. split; [exists 0; lia|]. intros t [k ->]. lia.
  - pose proof (N.mod_upper_bound (now - genesis) 800 ltac:(lia)).
    pose proof (N.div_mod (now - genesis) 800 ltac:(lia)).
    split; [lia|]. split.
    + exists ((now - genesis) / 800 + 1). lia.
    + intros t [k ->] Hlt.
      assert ((now - genesis) / 800 < k); [|nia].
      apply N.div_lt_upper_bound; lia.
Qed.

Lemma C43_schedule_pf now after genesis :
  now <= after ->
  ((exists t, boundary genesis t /\ now < t <= after) -> next_tick_delay now after genesis = 0) /\
  (~ (exists t, boundary genesis t /\ now < t <= after) ->
     after < after + next_tick_delay now after genesis /\
     boundary genesis (after + next_tick_delay now after genesis) /\
     forall t, boundary genesis t -> now < t -> after + next_tick_delay now after genesis <= t).
Proof.
  intros Hle. destruct (C43_wait_pf now genesis) as (H1 & H2 & H3).
  destruct (C43_wait_pf after genesis) as (G1 & G2 & G3). unfold next_tick_delay.
  assert (forall x, genesis <= x \/ x < genesis) as Hc by lia.
  assert (0 < ms_until_next_interval after genesis) as Hpos.
  { destruct (Hc after); [pose proof (G1 H); lia|]. unfold ms_until_next_interval.
    destruct (N.ltb_spec after genesis); lia. }
  assert (0 < ms_until_next_interval now genesis) as Hpos'.
  { destruct (Hc now); [pose proof (H1 H); lia|]. unfold ms_until_next_interval.
    destruct (N.ltb_spec now genesis); lia. }
  split.
  - intros (t & Ht & Hn & Ha). specialize (H3 t Ht Hn).
    destruct (N.leb_spec (ms_until_next_interval now genesis) (after - now)); [done|lia].
  - intros Hno. destruct (N.leb_spec (ms_until_next_interval now genesis) (after - now)) as [Hb|Hb].
    + exfalso. apply Hno. exists (now + ms_until_next_interval now genesis). split; [done|]. lia.
    + split; [lia|]. split; [done|]. intros t Ht Hlt. apply G3; [done|].
      destruct (decide (t <= after)); [|lia]. exfalso. apply Hno. eauto.
Qed.

(** ** C52 *)
Lemma C52_topics_pf s t : topic_of_str s = Some t <-> s = topic_str t.
Proof.
  split.
  - unfold topic_of_str. intros H.
    repeat match goal with
      | H : (if String.eqb ?a ?b then _ else _) = _ |- _ =>
          destruct (String.eqb a b) eqn:?; [injection H as <-; by apply String.eqb_eq|]
      end. done.
  - intros ->. by destruct t.
Qed.

Lemma C52_diff_pf old new wall :
  exists hd js fs, diff_and_emit old new wall = (hd ++ js ++ fs)%list /\
  (forall e, e ∈ hd <-> exists h, db_head new <> db_head old /\ t_headers (db_tab new) !! db_head new = Some h /\
     wall <= h_slot h + 32 /\ e = CeHead (h_slot h) (db_head new) (h_state_root h)) /\
  (forall e, e ∈ js <-> exists h, db_just new <> db_just old /\
     t_headers (db_tab new) !! cp_root (db_just new) = Some h /\
     e = CeJustified (cp_slot (db_just new)) (cp_root (db_just new)) (h_state_root h)) /\
  (forall e, e ∈ fs <-> exists h, db_fin new <> db_fin old /\
     t_headers (db_tab new) !! cp_root (db_fin new) = Some h /\
     e = CeFinalized (cp_slot (db_fin new)) (cp_root (db_fin new)) (h_state_root h)) /\
  (length hd <= 1)%nat /\ (length js <= 1)%nat /\ (length fs <= 1)%nat.
Proof.
  unfold diff_and_emit, get_header. eexists _, _, _. split; [reflexivity|].
  change HEAD_EVENT_RECENCY_SLOTS with 32. repeat split; intros.
  - destruct (N.eqb_spec (db_head new) (db_head old)); [by apply elem_of_nil in H|].
    destruct (t_headers (db_tab new) !! db_head new) as [h|] eqn:Hh; [|by apply elem_of_nil in H].
    destruct (N.leb_spec wall (h_slot h + 32)); [|by apply elem_of_nil in H].
    apply elem_of_list_singleton in H as ->. eauto 10.
  - destruct H as (h & Hne & -> & Hw & ->). destruct (N.eqb_spec (db_head new) (db_head old)); [done|].
    destruct (N.leb_spec wall (h_slot h + 32)); [|lia]. by apply elem_of_list_singleton.
  - case_bool_decide; [by apply elem_of_nil in H|].
    destruct (t_headers (db_tab new) !! cp_root (db_just new)) as [h|] eqn:Hh; [|by apply elem_of_nil in H].
    apply elem_of_list_singleton in H as ->. eauto 10.
  - destruct H as (h & Hne & -> & ->). rewrite bool_decide_false by done. by apply elem_of_list_singleton.
  - case_bool_decide; [by apply elem_of_nil in H|].
    destruct (t_headers (db_tab new) !! cp_root (db_fin new)) as [h|] eqn:Hh; [|by apply elem_of_nil in H].
    apply elem_of_list_singleton in H as ->. eauto 10.
  - destruct H as (h & Hne & -> & ->). rewrite bool_decide_false by done. by apply elem_of_list_singleton.
  - destruct (_ =? _); cbn; [lia|]. destruct (_ !! _); cbn; [|lia]. destruct (_ <=? _); cbn; lia.
  - case_bool_decide; cbn; [lia|]. destruct (_ !! _); cbn; lia.
  - case_bool_decide; cbn; [lia|]. destruct (_ !! _); cbn; lia.
Qed.

(** ** C55: counting *)
(** Validators below [n] in residue class [s] of [c]. *)
Definition in_class (n : nat) (c s : N) : list nat := filter (fun v => N.of_nat v mod c = s) (seq 0 n).

Lemma div_mod_succ n c : 0 < c ->
  (n mod c + 1 < c /\ (n + 1) / c = n / c /\ (n + 1) mod c = n mod c + 1) \/
  (n mod c + 1 = c /\ (n + 1) / c = n / c + 1 /\ (n + 1) mod c = 0).
Proof.
  intros Hc. pose proof (N.mod_upper_bound n c ltac:(lia)). pose proof (N.div_mod n c ltac:(lia)) as Hd.
  destruct (decide (n mod c + 1 < c)).
  - left. split; [done|].
    assert (n + 1 = c * (n / c) + (n mod c + 1)) as Hn by lia.
    split; [by rewrite <- (N.div_unique (n+1) c (n / c) (n mod c + 1)) by (done || lia)|].
    by rewrite <- (N.mod_unique (n+1) c (n / c) (n mod c + 1)) by (done || lia).
  - right. split; [lia|].
    assert (n + 1 = c * (n / c + 1) + 0) as Hn by lia.
    split; [by rewrite <- (N.div_unique (n+1) c (n / c + 1) 0) by (done || lia)|].
    by rewrite <- (N.mod_unique (n+1) c (n / c + 1) 0) by (done || lia).
Qed.

Lemma in_class_count n c s : 0 < c -> s < c ->
  N.of_nat (length (in_class n c s)) = N.of_nat n / c + (if s <? N.of_nat n mod c then 1 else 0).
Proof.
  intros Hc Hs. induction n as [|n IH].
  { cbn [in_class seq filter list_filter length]. unfold in_class. cbn. rewrite N.div_0_l, N.mod_0_l by lia.
    by destruct s. }
  unfold in_class in *. rewrite seq_S, filter_app, app_length. rewrite Nat2N.inj_add, IH. cbn [Nat.add].
  replace (N.of_nat (S n)) with (N.of_nat n + 1) by lia.
  rewrite filter_cons, filter_nil.
  destruct (div_mod_succ (N.of_nat n) c Hc) as [(H1 & H2 & H3)|(H1 & H2 & H3)]; rewrite H2, H3;
    destruct (decide (N.of_nat n mod c = s)); cbn [length];
    repeat match goal with |- context [?a <? ?b] => destruct (N.ltb_spec a b) end; lia.
Qed.

Lemma assigned_cons n c s ss : s ∉ ss ->
  length (assigned n c (s :: ss)) = (length (in_class (N.to_nat n) c s) + length (assigned n c ss))%nat.
Proof.
  intros Hs. unfold assigned, in_class. induction (seq 0 (N.to_nat n)) as [|v l IH]; [done|].
  rewrite !filter_cons. destruct (decide (N.of_nat v mod c = s)) as [He|He].
  - rewrite decide_True by (rewrite He; set_solver). rewrite (decide_False (P := _ ∈ ss)) by (by rewrite He).
    cbn [length]. lia.
  - destruct (decide (N.of_nat v mod c ∈ ss)).
    + rewrite decide_True by set_solver. cbn [length]. lia.
    + rewrite decide_False by set_solver. lia.
Qed.

Lemma C55_expected_pf n c subnets : 0 < c -> NoDup subnets ->
  expected_votes n c subnets = N.of_nat (length (assigned n c subnets)).
Proof.
  intros Hc. unfold expected_votes. induction subnets as [|s ss IH]; intros Hd.
  { unfold assigned. cbn. induction (seq 0 (N.to_nat n)); [done|]. rewrite filter_cons, decide_False by set_solver.
    done. }
  apply NoDup_cons in Hd as [Hs Hd]. rewrite assigned_cons by done. rewrite Nat2N.inj_add, <- IH by done.
  rewrite filter_cons. destruct (decide (s < c)) as [Hlt|Hge].
  - cbn [map foldr]. rewrite in_class_count by done. by rewrite N2Nat.id.
  - replace (length (in_class (N.to_nat n) c s)) with 0%nat; [lia|].
    unfold in_class. induction (seq 0 (N.to_nat n)) as [|v l IHl]; [done|].
    rewrite filter_cons, decide_False; [done|]. pose proof (N.mod_upper_bound (N.of_nat v) c ltac:(lia)). lia.
Qed.

Lemma C55_threshold_pf C n : 0 < cf_committees C -> NoDup (cf_subnets C) ->
  let expected := N.of_nat (length (assigned n (cf_committees C) (cf_subnets C))) in
  forall g, min_group_sigs C n <= g <-> 2 * expected <= 3 * g.
Proof.
  intros Hc Hd expected g. unfold min_group_sigs. rewrite C55_expected_pf by done. fold expected.
  destruct (N.eqb_spec (cf_committees C) 0); [lia|].
  pose proof (N.div_mod (2 * expected + 2) 3 ltac:(lia)). pose proof (N.mod_upper_bound (2 * expected + 2) 3 ltac:(lia)).
  lia.
Qed.
