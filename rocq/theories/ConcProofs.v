(** Requests served while the node works: proofs. *)
From Verif Require Export ConcSpec ServeThms.
Local Open Scope N_scope.

Section ConcProofs.
  Context (E : Env) (gt : N) (vals : list Validator).
  Context (Hgood : good_hash (e_header E)) (Hvals : lenN vals <= VALIDATOR_REGISTRY_LIMIT).
  Notation hs := (e_state E).
  Notation hh := (e_header E).
  Notation hb := (e_body E).
  Notation root_ := (block_root hh hb).
  Notation node_inv := (node_inv E gt vals).
  Notation db_inv := (db_inv E gt vals).
  Notation step_ok := (step_ok E gt vals).

  Definition head_slot_of (d : Db) : N := slot_of (db_tab d) (db_head d).
  (** What a later content still has. *)
  Record kept_in (t t' : Tables) : Prop := {
    ki_headers : forall r h, t_headers t !! r = Some h -> t_headers t' !! r = Some h;
    ki_states : forall r s, read_state t r = Ok (Some s) -> read_state t' r = Ok (Some s);
    ki_bodies : forall r, is_Some (t_bodies t !! r) -> is_Some (t_bodies t' !! r) }.
  (** What every content satisfies. *)
  Record snap (A : H256) (d : Db) : Prop := {
    sn_head : exists s, read_state (db_tab d) (db_head d) = Ok (Some s) /\
      t_headers (db_tab d) !! db_head d = Some (s_header s) /\ lenN (s_validators s) = lenN vals;
    sn_live : forall r sl p, live_chain (db_tab d) !! r = Some (sl, p) ->
      exists h, t_headers (db_tab d) !! r = Some h /\ h_slot h = sl /\ h_parent h = p;
    sn_dec : slots_decrease (live_chain (db_tab d));
    sn_index : index_exact (db_tab d) A (db_head d);
    sn_path : exists l, path (db_tab d) A (db_head d) l;
    sn_anchor : forall h, t_headers (db_tab d) !! A = Some h -> t_headers (db_tab d) !! h_parent h = None;
    sn_hash : hashed hh (db_tab d);
    sn_rows : forall B, rows_ok E B (db_tab d) }.
  Record between (A : H256) (n : Node) (d : Db) (n' : Node) : Prop := {
    bw_snap : snap A d;
    bw_from : kept_in (tab n) (db_tab d);
    bw_to : kept_in (db_tab d) (tab n');
    bw_just : cp_slot (db_just (nd_db n)) <= head_slot_of d;
    bw_fin : cp_slot (db_fin d) <= cp_slot (db_just (nd_db n')) }.
  Record pair (d d' : Db) : Prop := {
    pr_kept : kept_in (db_tab d) (db_tab d');
    pr_fin : cp_slot (db_fin d) <= head_slot_of d' }.
  Definition pairs (ds : list Db) : Prop :=
    forall i j d d', (i <= j)%nat -> ds !! i = Some d -> ds !! j = Some d' -> pair d d'.
  (** The node between events. *)
  Record calm (A : H256) (As : N) (w : gmap H256 State) (n : Node) : Prop := {
    ca_inv : node_inv A As w n;
    ca_head : head_ok (nd_db n);
    ca_rows : forall B, rows_ok E B (tab n) }.
  Record trace (A : H256) (n : Node) (ds : list Db) (n' : Node) : Prop := {
    tr_just : cp_slot (db_just (nd_db n)) <= cp_slot (db_just (nd_db n'));
    tr_kept : kept_in (tab n) (tab n');
    tr_between : forall d, d ∈ ds -> between A n d n';
    tr_pairs : pairs ds;
    tr_last : last (nd_db n :: ds) = Some (nd_db n') }.
  Record good (A : H256) (As : N) (w : gmap H256 State) (n : Node) (ds : list Db) (w' : gmap H256 State) (n' : Node) : Prop := {
    go_step : step_ok A As w w' n n';
    go_calm : calm A As w' n';
    go_trace : trace A n ds n' }.

  Lemma kept_refl t : kept_in t t.
  Proof. by split. Qed.
  Lemma kept_trans t t1 t2 : kept_in t t1 -> kept_in t1 t2 -> kept_in t t2.
  Proof. intros [] []. split; eauto. Qed.
  Lemma kept_st t w t' w' : st_inv hs hh t [] w -> st_inv hs hh t' [] w' -> (forall r s, w !! r = Some s -> w' !! r = Some s) ->
    (forall r h, t_headers t !! r = Some h -> t_headers t' !! r = Some h) ->
    (forall r, is_Some (t_bodies t !! r) -> is_Some (t_bodies t' !! r)) -> kept_in t t'.
  Proof.
    intros Hi Hi' Hw Hh Hb. split; [done| |done]. intros r s Hr. apply (read_spec _ _ _ _ _ _ _ Hi'). apply Hw.
    destruct (w !! r) as [x|] eqn:Hx.
    - rewrite (read_spec _ _ _ _ _ _ _ Hi Hx) in Hr. congruence.
    - by rewrite (read_none _ _ _ _ _ _ Hi Hx) in Hr.
  Qed.
  Lemma kept_inv A As w d w' d' : db_inv A As w d -> db_inv A As w' d' -> (forall r s, w !! r = Some s -> w' !! r = Some s) ->
    (forall r h, t_headers (db_tab d) !! r = Some h -> t_headers (db_tab d') !! r = Some h) ->
    (forall r, is_Some (t_bodies (db_tab d) !! r) -> is_Some (t_bodies (db_tab d') !! r)) ->
    kept_in (db_tab d) (db_tab d').
  Proof.
    intros Hi Hi' Hw Hh Hb. split; [done| |done]. intros r s Hr. apply (w_read _ _ _ _ _ _ _ _ _ Hi'). apply Hw.
    destruct (w !! r) as [x|] eqn:Hx.
    - rewrite (w_read _ _ _ _ _ _ _ _ _ Hi Hx) in Hr. congruence.
    - by rewrite (w_read_none _ _ _ _ _ _ _ _ Hi Hx) in Hr.
  Qed.
  Lemma w_validators A As w d r s : db_inv A As w d -> w !! r = Some s -> lenN (s_validators s) = lenN vals.
  Proof.
    intros Hi Hw. destruct (di_chain _ _ _ _ _ _ _ Hi _ _ Hw) as (raw & bs & Hc & ->).
    change (s_validators (NodeProofs.seal E raw)) with (s_validators raw).
    by rewrite (cf_vals _ _ _ _ _ _ _ (chain_has_facts _ _ _ _ _ _ _ Hc)).
  Qed.
  Lemma snap_inv A As w d : db_inv A As w d -> (forall B, rows_ok E B (db_tab d)) -> snap A d.
  Proof.
    intros Hi Hrows. split; [| | | | | | |done].
    - destruct (di_head _ _ _ _ _ _ _ Hi) as [s Hs]. exists s. split; [by apply (w_read _ _ _ _ _ _ _ _ _ Hi)|].
      split; [apply (w_header _ _ _ _ _ _ _ _ _ Hi Hs)|by eapply w_validators].
    - intros r sl p Hl. destruct (live_w E gt vals _ _ _ _ _ _ _ Hi Hl) as (s & Hw & -> & ->).
      destruct (w_header _ _ _ _ _ _ _ _ _ Hi Hw) as (Hh & Hs & _). exists (s_header s). done.
    - by eapply live_decreasing.
    - apply Hi.
    - destruct (di_head _ _ _ _ _ _ _ Hi) as [s Hs]. destruct (di_path _ _ _ _ _ _ _ Hi _ _ Hs) as (l & Hp & _). by exists l.
    - intros h. by eapply anchor_parent.
    - exact (si_hash _ _ _ _ _ (di_st _ _ _ _ _ _ _ Hi)).
  Qed.
  Lemma head_slot_inv A As w d : db_inv A As w d -> head_ok d -> cp_slot (db_just d) <= head_slot_of d.
  Proof.
    intros Hi Hd. destruct (di_just _ _ _ _ _ _ _ Hi) as (sj & Hwj & Hsj).
    assert (exists p, live_chain (db_tab d) !! cp_root (db_just d) = Some (cp_slot (db_just d), p)) as (p & Hj).
    { eexists. apply (live_lookup E gt vals _ _ _ _ _ _ _ Hi). rewrite <- Hsj.
      apply (di_live_all _ _ _ _ _ _ _ Hi _ _ Hwj). lia. }
    destruct (descends_in _ _ _ Hd) as [[[sh ph] Hlh] _].
    destruct (descends_slot _ _ _ _ _ _ _ (live_decreasing E gt vals Hgood Hvals _ _ _ _ Hi) Hd Hlh Hj) as [Hle _].
    destruct (live_w E gt vals _ _ _ _ _ _ _ Hi Hlh) as (s & Hw & -> & _).
    destruct (w_header _ _ _ _ _ _ _ _ _ Hi Hw) as (_ & _ & Hs). unfold head_slot_of. lia.
  Qed.

  Lemma pairs_app ds1 ds2 : pairs ds1 -> pairs ds2 -> (forall d d', d ∈ ds1 -> d' ∈ ds2 -> pair d d') -> pairs (ds1 ++ ds2).
  Proof.
    intros H1 H2 H i j d d' Hij Hi Hj. apply lookup_app_Some in Hi as [Hi|[Hli Hi]].
    - apply lookup_app_Some in Hj as [Hj|[Hlj Hj]]; [by eapply H1|]. apply H; by eapply elem_of_list_lookup_2.
    - apply lookup_app_Some in Hj as [Hj|[Hlj Hj]].
      + apply lookup_lt_Some in Hj. lia.
      + eapply (H2 (i - length ds1)%nat (j - length ds1)%nat); [lia|done|done].
  Qed.
  Lemma pairs_cons d ds : pair d d -> pairs ds -> (forall d', d' ∈ ds -> pair d d') -> pairs (d :: ds).
  Proof.
    intros H1 H2 H. apply (pairs_app [d]); [|done|].
    - intros i j x y _ Hi Hj. apply list_lookup_singleton_Some in Hi as [_ <-], Hj as [_ <-]. done.
    - intros x y ->%elem_of_list_singleton Hy. by apply H.
  Qed.
  Lemma pairs_nil : pairs [].
  Proof. intros i j d d' _ H. done. Qed.

  Lemma trace_app A n ds1 n1 ds2 n2 : trace A n ds1 n1 -> trace A n1 ds2 n2 -> trace A n (ds1 ++ ds2) n2.
  Proof.
    intros [S1 K1 B1 P1 L1] [S2 K2 B2 P2 L2]. split.
    - lia.
    - by eapply kept_trans.
    - intros d [Hd|Hd]%elem_of_app.
      + destruct (B1 d Hd) as [b1 b2 b3 b4 b5]. split; [done|done|by eapply kept_trans|done|lia].
      + destruct (B2 d Hd) as [b1 b2 b3 b4 b5]. split; [done|by eapply kept_trans|done|lia|done].
    - apply pairs_app; [done|done|]. intros d d' Hd Hd'. destruct (B1 d Hd), (B2 d' Hd'). split; [by eapply kept_trans|lia].
    - rewrite app_comm_cons. destruct ds2 as [|x ds2]; [rewrite app_nil_r, L1; cbn in L2; congruence|].
      rewrite last_app_cons. exact L2.
  Qed.
  Lemma good_app A As w n ds1 w1 n1 ds2 w2 n2 :
    good A As w n ds1 w1 n1 -> good A As w1 n1 ds2 w2 n2 -> good A As w n (ds1 ++ ds2) w2 n2.
  Proof. intros [S1 C1 T1] [S2 C2 T2]. split; [by eapply step_trans|done|by eapply trace_app]. Qed.
  Lemma calm_step A As w w' n n' : calm A As w n -> step_ok A As w w' n n' -> (forall B, rows_ok E B (tab n')) -> calm A As w' n'.
  Proof. intros [C1 C2 C3] S Hr. split; [apply S|by apply S|done]. Qed.
  Lemma good_mem A As w n n' : calm A As w n -> step_ok A As w w n n' -> nd_db n' = nd_db n -> good A As w n [] w n'.
  Proof.
    intros C S Hd. split; [done| |split; [apply S| | |apply pairs_nil|cbn; by rewrite Hd]].
    - eapply calm_step; [done|done|]. unfold tab. rewrite Hd. apply C.
    - unfold tab. rewrite Hd. apply kept_refl.
    - intros d H. by apply elem_of_nil in H.
  Qed.
  Lemma good_one A As w w' n n' : calm A As w n -> step_ok A As w w' n n' -> (forall B, rows_ok E B (tab n')) ->
    (forall r, is_Some (t_bodies (tab n) !! r) -> is_Some (t_bodies (tab n') !! r)) ->
    good A As w n [nd_db n'] w' n'.
  Proof.
    intros C S Hr Hb. pose proof (calm_step _ _ _ _ _ _ C S Hr) as C'. destruct C' as [[Hi' Hm'] Ho' _].
    assert (kept_in (tab n) (tab n')) as K.
    { eapply kept_inv; [apply C|apply Hi'|apply S|apply S|done]. }
    pose proof (head_slot_inv _ _ _ _ Hi' Ho') as Hhs. pose proof (di_fin_just _ _ _ _ _ _ _ Hi') as Hfj.
    split; [done|done|split; [apply S|done| | |done]].
    - intros d ->%elem_of_list_singleton. split; [by eapply snap_inv|done|apply kept_refl| |done].
      pose proof (so_just _ _ _ _ _ _ _ _ _ S). lia.
    - apply pairs_cons; [|apply pairs_nil|intros d H; by apply elem_of_nil in H]. split; [apply kept_refl|]. lia.
  Qed.

  (** *** The head update *)
  Lemma prune_after_rest d adv : let d' := prune_after d adv in
    db_head d' = db_head d /\ db_fin d' = db_fin d /\ db_just d' = db_just d /\
    t_headers (db_tab d') = t_headers (db_tab d) /\ t_bodies (db_tab d') = t_bodies (db_tab d).
  Proof using. clear. by destruct adv. Qed.
  Lemma update_core A As w n : node_inv A As w n -> (forall B, rows_ok E B (tab n)) ->
    exists n' d1, update_head n = Ok n' /\ update_commits n = [d1; nd_db n'] /\ step_ok A As w w n n' /\ head_ok (nd_db n') /\
      db_inv A As w d1 /\ db_just d1 = db_just (nd_db n) /\ db_just (nd_db n') = db_just (nd_db n) /\
      db_fin d1 = db_fin (nd_db n') /\ db_head d1 = db_head (nd_db n') /\
      t_headers (db_tab d1) = t_headers (tab n) /\ t_bodies (db_tab d1) = t_bodies (tab n) /\
      t_headers (tab n') = t_headers (tab n) /\ t_bodies (tab n') = t_bodies (tab n) /\
      nd_votes n' = nd_votes n.
  Proof.
    intros Hn Hr.
    destruct (update_head_spec E gt vals Hgood Hvals _ _ _ _ (proj1 Hn) (proj2 Hn)) as
      (n' & h & s & o & d1 & Hu & Hg & Hs & Ho & Hap & Hdb & Hi1 & Hi2 & Hm' & Hok & Hhu & Hv & Hf).
    destruct (update_head_step E gt vals Hgood Hvals _ _ _ _ Hn) as (n2 & Hu2 & Hst & _).
    rewrite Hu in Hu2. injection Hu2 as <-.
    destruct (prune_after_rest d1 (finalization_advanced (nd_db n) o)) as (P1 & P2 & P3 & P4 & P5). rewrite <- Hdb in *.
    exists n', d1. split_and!; try done.
    - unfold update_commits. rewrite Hg. cbn [rbind]. rewrite Ho. cbn [rbind]. rewrite Hap. cbn [rbind or_nil]. by rewrite <- Hdb.
    - rewrite <- P3. apply (hu_just _ _ _ Hhu).
    - apply (hu_just _ _ _ Hhu).
    - rewrite <- P4. apply (hu_headers _ _ _ Hhu).
    - rewrite <- P5. apply (hu_bodies _ _ _ Hhu).
    - apply (hu_headers _ _ _ Hhu).
    - apply (hu_bodies _ _ _ Hhu).
  Qed.
  Lemma slot_same t t' r : t_headers t = t_headers t' -> slot_of t r = slot_of t' r.
  Proof using. clear. unfold slot_of. by intros ->. Qed.
  Lemma good_update A As w n : node_inv A As w n -> (forall B, rows_ok E B (tab n)) ->
    exists n', update_head n = Ok n' /\ good A As w n (update_commits n) w n'.
  Proof.
    intros Hn R. destruct (update_core _ _ _ _ Hn R) as
      (n' & d1 & Hu & Hc & S & Ho & Hi1 & J1 & J2 & F1 & H1 & T1 & T2 & T3 & T4 & _).
    exists n'. split; [done|]. rewrite Hc.
    assert (forall B, rows_ok E B (db_tab d1)) as R1.
    { intros B. eapply rows_same; [exact T1|exact T2|apply R]. }
    assert (forall B, rows_ok E B (tab n')) as R2.
    { intros B. eapply rows_same; [exact T3|exact T4|apply R]. }
    assert (calm A As w n') as C' by (split; [apply S|done|done]). destruct C' as [[Hi' Hm'] Ho' _].
    assert (kept_in (tab n) (db_tab d1)) as K1.
    { eapply kept_inv; [apply Hn|apply Hi1|done|unfold tab in T1; by rewrite T1|unfold tab in T2; by rewrite T2]. }
    assert (kept_in (db_tab d1) (tab n')) as K2.
    { eapply kept_inv; [apply Hi1|apply Hi'|done|unfold tab in *; by rewrite T1, T3|unfold tab in *; by rewrite T2, T4]. }
    pose proof (head_slot_inv _ _ _ _ Hi' Ho') as Hhs. pose proof (di_fin_just _ _ _ _ _ _ _ Hi') as Hfj.
    assert (head_slot_of d1 = head_slot_of (nd_db n')) as Hsl.
    { unfold head_slot_of. rewrite H1. apply slot_same. unfold tab in *. congruence. }
    split; [done|done|split; [apply S|by eapply kept_trans| | |done]].
    - intros d Hd. apply elem_of_cons in Hd as [->|Hd%elem_of_list_singleton].
      + split; [by eapply snap_inv|done|done| |].
        * rewrite Hsl, <- J2. done.
        * rewrite F1. done.
      + subst d. split; [by eapply snap_inv|by eapply kept_trans|apply kept_refl| |done]. rewrite <- J2. done.
    - apply pairs_cons; [|apply pairs_cons|].
      + split; [apply kept_refl|]. rewrite F1. lia.
      + split; [apply kept_refl|]. lia.
      + apply pairs_nil.
      + intros d H. by apply elem_of_nil in H.
      + intros d ->%elem_of_list_singleton. split; [done|]. rewrite F1. lia.
  Qed.

  (** *** Ticks *)
  Lemma good_accept A As w n : calm A As w n ->
    exists n', accept_new_attestations E n = Ok n' /\ good A As w n (accept_commits E n) w n'.
  Proof.
    intros C. destruct (ca_inv _ _ _ _ C) as [Hi (M1 & M2 & M3)].
    destruct (accept_step E gt vals Hgood Hvals _ _ _ _ (ca_inv _ _ _ _ C)) as (n' & Ha & _).
    unfold accept_new_attestations, accept_commits in *.
    destruct (payload_promote (e_data E) (nd_new n) (nd_known n)) as [p|e|] eqn:Hp; [|done|done].
    cbn [rbind] in *. set (n1 := mkNode (nd_db n) (promote (e_data E) (nd_votes n)) p.1 p.2 (nd_gossip n)) in *.
    assert (step_ok A As w w n n1) as S1.
    { apply step_mem; [apply C| |done]. destruct (promote_ok E (nd_new n) (nd_known n) M1 M2) as (b & k & Hp' & Hb & Hk).
      rewrite Hp' in Hp. injection Hp as <-. done. }
    pose proof (good_mem _ _ _ _ _ C S1 eq_refl) as G1.
    pose proof (go_calm _ _ _ _ _ _ _ G1) as C1.
    destruct (good_update _ _ _ _ (ca_inv _ _ _ _ C1) (ca_rows _ _ _ _ C1)) as (n2 & Hu & G2).
    exists n2. split; [done|]. exact (good_app _ _ _ _ _ _ _ _ _ _ G1 G2).
  Qed.
  Lemma good_time A As w n t : calm A As w n -> db_time (nd_db n) <= t ->
    good A As w n [set_time (nd_db n) t] w (with_db n (set_time (nd_db n) t)).
  Proof.
    intros C Ht. apply (good_one A As w w n (with_db n (set_time (nd_db n) t))); [done|apply (time_step E gt vals Hvals); [apply C|done]| |done].
    intros B. eapply rows_same; [| |apply C]; done.
  Qed.
  Lemma good_safe A As w n : calm A As w n ->
    exists n', update_safe_target n = Ok n' /\ good A As w n (safe_commits n) w n'.
  Proof.
    intros C. destruct (safe_target_step E gt vals Hgood Hvals _ _ _ _ (ca_inv _ _ _ _ C)) as (n' & Hu & S & _).
    exists n'. split; [done|]. unfold safe_commits. rewrite Hu.
    assert (t_headers (tab n') = t_headers (tab n) /\ t_bodies (tab n') = t_bodies (tab n)) as [T1 T2].
    { unfold update_safe_target in Hu. apply rbind_Ok in Hu as (o & _ & Hu). destruct o; [|done].
      destruct (safe_target _ _ _ _); [|done]. by injection Hu as <-. }
    apply good_one; [done|done| |by rewrite T2]. intros B. eapply rows_same; [exact T1|exact T2|apply C].
  Qed.
  Lemma good_tick_once A As w n hp last : calm A As w n ->
    exists n', tick_once E n hp last = Ok n' /\ good A As w n (tick_once_commits E n hp last) w n'.
  Proof.
    intros C. unfold tick_once, tick_once_commits. cbv zeta.
    pose proof (good_time _ _ _ _ (db_time (nd_db n) + 1) C ltac:(lia)) as G1. cbn [nd_db with_db].
    set (n1 := with_db n (set_time (nd_db n) (db_time (nd_db n) + 1))) in *.
    pose proof (go_calm _ _ _ _ _ _ _ G1) as C1.
    assert (forall ds (r : res unit Node), (exists n', r = Ok n' /\ good A As w n1 ds w n') ->
      exists n', r = Ok n' /\ good A As w n (set_time (nd_db n) (db_time (nd_db n) + 1) :: ds) w n') as Hthen.
    { intros ds r (n' & -> & G2). exists n'. split; [done|]. exact (good_app _ _ _ _ _ _ _ _ _ _ G1 G2). }
    assert (exists n', Ok n1 = Ok (E := unit) n' /\ good A As w n1 [] w n') as Hskip.
    { exists n1. split; [done|]. apply good_mem; [done|by apply step_refl; apply C1|done]. }
    destruct (interval_of _).
    - destruct (hp && last); apply Hthen; [by apply good_accept|done].
    - by apply Hthen.
    - by apply Hthen.
    - apply Hthen. by apply good_safe.
    - apply Hthen. by apply good_accept.
  Qed.
  Lemma good_refl A As w n : calm A As w n -> good A As w n [] w n.
  Proof. intros C. apply good_mem; [done|by apply step_refl; apply C|done]. Qed.
  Lemma good_tick_loop A As w k hp : forall n, calm A As w n ->
    exists n', tick_loop E k n hp = Ok n' /\ good A As w n (tick_loop_commits E k n hp) w n'.
  Proof.
    induction k as [|k IH]; intros n C; cbn [tick_loop tick_loop_commits].
    - exists n. split; [done|by apply good_refl].
    - destruct (good_tick_once _ _ _ _ hp (match k with O => true | _ => false end) C) as (n1 & H1 & G1).
      rewrite H1. cbn [rbind]. destruct (IH n1 (go_calm _ _ _ _ _ _ _ G1)) as (n2 & H2 & G2).
      exists n2. split; [done|]. by eapply good_app.
  Qed.
  Lemma good_on_tick A As w n ts hp : calm A As w n ->
    exists n', on_tick E n ts hp = Ok n' /\ good A As w n (on_tick_commits E n ts hp) w n'.
  Proof.
    intros C. unfold on_tick, on_tick_commits. cbv zeta.
    set (time := (ts - db_gt (nd_db n) * 1000) / MILLISECONDS_PER_INTERVAL).
    change INTERVALS_PER_SLOT with 5. destruct (N.ltb_spec 5 (time - db_time (nd_db n))) as [Hj|Hj].
    - pose proof (good_time _ _ _ _ (time - 5) C ltac:(lia)) as G1. cbn [nd_db with_db].
      destruct (good_tick_loop _ _ _ (N.to_nat (time - db_time (set_time (nd_db n) (time - 5)))) hp _ (go_calm _ _ _ _ _ _ _ G1))
        as (n2 & H2 & G2). exists n2. split; [done|]. exact (good_app _ _ _ _ _ _ _ _ _ _ G1 G2).
    - by apply good_tick_loop.
  Qed.

  (** *** Imports *)
  Lemma apply_rest d h j f d' : apply_checkpoints d h j f = Ok d' ->
    t_headers (db_tab d') = t_headers (db_tab d) /\ t_bodies (db_tab d') = t_bodies (db_tab d).
  Proof using. clear. unfold apply_checkpoints. intros H. apply rbind_Ok in H as ([dels puts] & _ & H). by injection H as <-. Qed.
  Lemma import_state_rest d sb post d' : import_state E d sb post = Ok d' ->
    db_head d' = db_head d /\ db_fin d' = db_fin d /\ db_just d' = db_just d /\
    t_headers (db_tab d') = t_headers (db_tab d) /\ t_bodies (db_tab d') = t_bodies (db_tab d) /\
    t_roots (db_tab d') = t_roots (db_tab d) /\ t_live (db_tab d') = t_live (db_tab d).
  Proof using.
    clear. unfold import_state. intros H. apply rbind_Ok in H as ([t c] & H & Hd). injection Hd as <-. cbn [with_tab db_head db_fin db_just db_tab fst].
    unfold insert_state in H. apply rbind_Ok in H as ([[p|] c1] & _ & H); [|done].
    destruct (diff_from_states _ _ _); [|done|done]. injection H as <- _. by destruct (_ <? _).
  Qed.
  Lemma write_bodies t sb r : is_Some (t_bodies t !! r) -> is_Some (t_bodies (insert_signed_block hb t (root_ (sb_block sb)) sb) !! r).
  Proof using.
    clear. intros [x Hx]. unfold insert_signed_block, write_signed_block. cbn [set_live t_bodies set_proofs].
    destruct (_ =? _); cbn [set_headers set_bodies t_bodies]; [by eexists|].
    destruct (decide (root_ (sb_block sb) = r)) as [->|Hne]; [rewrite lookup_insert; by eexists|].
    rewrite lookup_insert_ne by done. by eexists.
  Qed.
  Lemma good_block A As w n sb n' : calm A As w n -> keep n (on_block E n sb) = Ok n' ->
    exists w', good A As w n (or_nil (import_commits E n sb)) w' n'.
  Proof.
    intros C H. pose proof (ca_inv _ _ _ _ C) as Hn. apply keep_Ok in H as [H|[[e H] ->]].
    2:{ exists w. assert (or_nil (import_commits E n sb) = []) as ->; [|by apply good_refl].
        unfold on_block in H. unfold import_commits. destruct (check_block E (nd_db n) sb) as [o|e1|] eqn:Hc; [|done|done].
        cbn [rbind] in *.
        destruct (check_block_spec E gt vals _ _ _ _ _ _ (proj1 Hn) Hc) as [[-> Hr]|(p & post & Hnone & Hpar & Hst & ->)]; [done|].
        destruct (import_spec E gt vals Hgood Hvals _ _ _ _ sb _ _ Hn Hnone Hpar Hst) as
          (d1 & d3 & n1 & h & o & d4 & H1 & _ & _ & _ & _ & H2 & _ & H3 & _).
        rewrite H1 in H. cbn [expect rbind] in H. rewrite H2 in H. cbn [expect rbind] in H. rewrite H3 in H. done. }
    unfold on_block in H. apply rbind_Ok in H as (o & Hc & H).
    unfold import_commits. rewrite Hc. cbn [rbind].
    destruct (check_block_spec E gt vals _ _ _ _ _ _ (proj1 Hn) Hc) as [[-> Hr]|(p & post & Hnone & Hpar & Hst & ->)].
    { apply Ok_inj in H as <-. exists w. by apply good_refl. }
    destruct (import_spec E gt vals Hgood Hvals _ _ _ _ sb _ _ Hn Hnone Hpar Hst) as
      (d1 & d3 & n1 & h & o & d4 & H1 & Hi1 & Hj1 & Hh1 & Hf1 & H2 & Hi3 & H3 & S & Hok & G1 & G2 & G3 & Hi4 & G5 & Hhu & _ & _ & _ & Hj3 & Hf3).
    rewrite H1 in *. cbn [expect rbind] in *. rewrite H2 in *. cbn [expect rbind] in *. rewrite H3 in H. cbn [expect] in H.
    apply Ok_inj in H as <-. rewrite G1. cbn [expect rbind]. rewrite G2. cbn [expect rbind]. rewrite G3. cbn [expect rbind or_nil].
    set (n3 := mkNode d3 _ _ _ _) in *. set (b := sb_block sb) in *. set (s := stored_state post b) in *. set (w' := <[root_ b := s]> w) in *.
    set (d2 := import_block E d1 sb) in *.
    destruct (import_state_rest _ _ _ _ H2) as (I1 & I2 & I3 & I4 & I5 & I6 & I7).
    assert (t_headers (db_tab d1) = t_headers (tab n) /\ t_bodies (db_tab d1) = t_bodies (tab n)) as [T1 T2].
    { unfold import_justified in H1. destruct (_ <? _); [|by apply Ok_inj in H1 as <-]. by apply apply_rest in H1. }
    assert (t_headers (tab n1) = t_headers (db_tab d3)) as T3 by apply Hhu.
    assert (forall r x, t_headers (tab n) !! r = Some x -> t_headers (db_tab d2) !! r = Some x) as Hmono.
    { intros r x Hx. rewrite <- I4, <- T3. by apply S. }
    assert (st_inv hs hh (db_tab d2) [] w) as Hst2.
    { eapply (st_inv_write hs hh hb (proj1 Hgood) _ _ _ sb); [apply Hi1|apply insert_headers_row|apply insert_states|apply insert_diffs]. }
    assert (forall r x, w !! r = Some x -> w' !! r = Some x) as Hw by apply S.
    assert (kept_in (tab n) (db_tab d1)) as K1.
    { eapply kept_inv; [apply Hn|apply Hi1|done|unfold tab in T1; by rewrite T1|unfold tab in T2; by rewrite T2]. }
    assert (kept_in (db_tab d1) (db_tab d2)) as K2.
    { eapply kept_st; [apply Hi1|apply Hst2|done|rewrite T1; apply Hmono|]. intros r. apply write_bodies. }
    assert (kept_in (db_tab d2) (db_tab d3)) as K3.
    { eapply kept_st; [apply Hst2|apply Hi3|done|by rewrite I4|by rewrite I5]. }
    assert (forall B, rows_ok E B (db_tab d1)) as R1 by (intros B; eapply rows_same; [exact T1|exact T2|apply C]).
    assert (forall B, rows_ok E B (db_tab d2)) as R2.
    { intros B. unfold d2, import_block. cbn [with_tab db_tab]. unfold insert_signed_block. eapply rows_same; [| |apply rows_write, R1]; done. }
    assert (forall B, rows_ok E B (db_tab d3)) as R3 by (intros B; eapply rows_same; [exact I4|exact I5|apply R2]).
    pose proof (snap_inv _ _ _ _ Hi1 R1) as N1. pose proof (snap_inv _ _ _ _ Hi3 R3) as N3.
    assert (snap A d2) as N2.
    { destruct N1 as [(x & X1 & X2 & X3) _ _ _ (lp & Hlp) _ _ _]. split; [| | | | | | |done].
      - exists x. change (db_head d2) with (db_head d1). split; [by apply K2|]. split; [by apply K2|done].
      - intros r sl q Hl. destruct (sn_live _ _ N3 r sl q) as (y & Hy & ?); [unfold live_chain in *; by rewrite I7|].
        exists y. by rewrite <- I4.
      - pose proof (sn_dec _ _ N3) as Hdec. unfold live_chain in *. by rewrite <- I7.
      - pose proof (sn_index _ _ N3) as Hix. intros sl r. rewrite <- I6, (Hix sl r), I1. unfold on_chain_of. rewrite I4.
        split; intros (l & y & Hp & ?); exists l, y; (split; [|done]); (eapply path_keep; [|exact Hp]); by rewrite I4.
      - exists lp. eapply path_keep; [|exact Hlp]. apply K2.
      - intros y. rewrite <- I4. apply (sn_anchor _ _ N3).
      - intros r y Hy. rewrite <- I4 in Hy. by apply (sn_hash _ _ N3). }
    assert (forall d, d ∈ [d1; d2; d3] -> snap A d /\ db_head d = db_head (nd_db n) /\ db_fin d = db_fin (nd_db n) /\
      kept_in (tab n) (db_tab d) /\ kept_in (db_tab d) (db_tab d3)) as Hall.
    { intros d Hd. rewrite !elem_of_cons, elem_of_nil in Hd. destruct Hd as [->|[->|[->|[]]]].
      - split_and!; [done|done|done|done|]. eapply kept_trans; [exact K2|exact K3].
      - split_and!; [done|done|done|by eapply kept_trans|done].
      - split_and!; [done|by rewrite I1|by rewrite I2| |apply kept_refl]. eapply kept_trans; [exact K1|]. eapply kept_trans; [exact K2|exact K3]. }
    destruct (sn_head _ _ (snap_inv _ _ _ _ (proj1 Hn) (ca_rows _ _ _ _ C))) as (x & _ & Hx & _).
    pose proof (head_slot_inv _ _ _ _ (proj1 Hn) (ca_head _ _ _ _ C)) as Hhs. pose proof (di_fin_just _ _ _ _ _ _ _ (proj1 Hn)) as Hfj.
    assert (cp_slot (db_just (nd_db n)) <= cp_slot (db_just d3)) as Hjj.
    { rewrite Hj3, Hj1. destruct (N.ltb_spec (cp_slot (db_just (nd_db n))) (cp_slot (s_justified s))); lia. }
    assert (forall d, d ∈ [d1; d2; d3] -> head_slot_of d = head_slot_of (nd_db n)) as Hslot.
    { intros d Hd. destruct (Hall d Hd) as (_ & Hhd & _ & K & _). unfold head_slot_of, slot_of. rewrite Hhd. unfold tab in *.
      by rewrite Hx, (ki_headers _ _ K _ _ Hx). }
    assert (trace A n [d1; d2; d3] n3) as T.
    { split; [done| | | |done].
      - apply (Hall d3). set_solver.
      - intros d Hd. destruct (Hall d Hd) as (Q1 & Q2 & Q3 & Q4 & Q5). split; [done|done|done| |].
        + by rewrite (Hslot d Hd).
        + rewrite Q3. cbn [nd_db n3]. lia.
      - assert (forall d d', d ∈ [d1; d2; d3] -> d' ∈ [d1; d2; d3] -> kept_in (db_tab d) (db_tab d') -> pair d d') as Hpair.
        { intros d d' Hd Hd' K. split; [done|]. rewrite (Hslot d' Hd'). destruct (Hall d Hd) as (_ & _ & -> & _). lia. }
        apply pairs_cons; [apply Hpair; [set_solver..|apply kept_refl]|apply pairs_cons;
          [apply Hpair; [set_solver..|apply kept_refl]|apply pairs_cons;
            [apply Hpair; [set_solver..|apply kept_refl]|apply pairs_nil|intros d Hd; by apply elem_of_nil in Hd]|]|].
        + intros d Hd. apply elem_of_list_singleton in Hd as ->. apply Hpair; [set_solver..|done].
        + intros d Hd. rewrite !elem_of_cons, elem_of_nil in Hd. destruct Hd as [->|[->|[]]].
          * apply Hpair; [set_solver..|exact K2].
          * apply Hpair; [set_solver..|]. eapply kept_trans; [exact K2|exact K3]. }
    assert (node_inv A As w' n3) as Hn3 by (split; [done|apply Hn]).
    destruct (good_update _ _ _ _ Hn3 R3) as (n1' & Hu & [S3 C3 T3']).
    rewrite H3 in Hu. apply Ok_inj in Hu as <-.
    exists w'. split; [done|done|].
    assert (update_commits n3 = [d4; prune_after d4 (finalization_advanced d3 o)]) as Hcm.
    { unfold update_commits. rewrite G1. cbn [rbind]. rewrite G2. cbn [rbind]. cbn [nd_db n3]. rewrite G3. done. }
    rewrite Hcm in T3'. exact (trace_app _ _ _ _ _ _ T T3').
  Qed.

  (** *** All events *)
  Lemma good_event A As w n e n' : calm A As w n -> node_step E n e = Ok n' -> exists w', good A As w n (commits E n e) w' n'.
  Proof.
    intros C H. pose proof (ca_inv _ _ _ _ C) as Hn.
    destruct e as [sb|sb|ts hp|sa agg|sg|l keys|slot| |]; cbn [node_step] in H; cbn [commits].
    - by apply good_block.
    - exists w. cbn [node_step]. rewrite H.
      pose proof (node_step_same E gt vals Hgood Hvals _ _ _ n (ev_pending sb) n' Hn H ltac:(done)) as S.
      assert (forall B, rows_ok E B (tab n')) as R.
      { intros B. eapply (rows_step E gt vals Hgood Hvals _ _ _ _ _ (ev_pending sb)); [exact Hn|apply C|exact H]. }
      apply good_one; [done|done|done|].
      destruct (pends n (sb_block sb)); apply Ok_inj in H as <-; [|done]. intros r [x Hx].
      unfold tab. cbn [with_db nd_db with_tab db_tab]. unfold insert_pending_block, write_signed_block. cbn [t_bodies set_proofs].
      destruct (_ =? _); cbn [set_headers set_bodies t_bodies]; [by eexists|].
      destruct (decide (root_ (sb_block sb) = r)) as [->|Hne]; [rewrite lookup_insert; by eexists|].
      rewrite lookup_insert_ne by done. by eexists.
    - destruct (good_on_tick _ _ _ _ ts hp C) as (n1 & H1 & G). rewrite H in H1. apply Ok_inj in H1 as <-. by exists w.
    - exists w. pose proof (node_step_same E gt vals Hgood Hvals _ _ _ n (ev_attestation sa agg) n' Hn H ltac:(done)) as S.
      apply good_mem; [done|done|]. apply keep_Ok in H as [H|[_ ->]]; [|done].
      by apply (attestation_step E gt vals _ _ _ _ _ _ _ Hn H).
    - exists w. pose proof (node_step_same E gt vals Hgood Hvals _ _ _ n (ev_aggregate sg) n' Hn H ltac:(done)) as S.
      apply good_mem; [done|done|]. apply keep_Ok in H as [H|[_ ->]]; [|done].
      by apply (aggregate_step E gt vals _ _ _ _ _ _ Hn H).
    - exists w. pose proof (node_step_same E gt vals Hgood Hvals _ _ _ n (ev_local l keys) n' Hn H ltac:(done)) as S.
      apply good_mem; [done|done|]. destruct (batch_step E gt vals Hvals _ _ _ _ l Hn) as (n1 & Hb & _ & Hd). rewrite Hb in H. cbn [rbind] in H.
      apply rbind_Ok in H as (g & _ & H). by apply Ok_inj in H as <-.
    - exists w. apply rbind_Ok in H as ([n2 h] & H & Heq). apply Ok_inj in Heq as <-. cbn [fst].
      unfold get_proposal_head in H. apply rbind_Ok in H as (n1 & H1 & H). apply rbind_Ok in H as (n2' & H2 & H).
      injection H as <- <-.
      destruct (good_on_tick _ _ _ _ (db_gt (nd_db n) * 1000 + slot * MILLISECONDS_PER_SLOT) true C) as (n1' & Ht & G1).
      rewrite H1 in *. apply Ok_inj in Ht as <-.
      destruct (good_accept _ _ _ _ (go_calm _ _ _ _ _ _ _ G1)) as (n3 & Ha & G2). rewrite H2 in Ha. apply Ok_inj in Ha as <-.
      by eapply good_app.
    - exists w. cbn [node_step]. rewrite H.
      pose proof (node_step_same E gt vals Hgood Hvals _ _ _ n ev_prune n' Hn H ltac:(done)) as S.
      assert (forall B, rows_ok E B (tab n')) as R.
      { intros B. eapply (rows_step E gt vals Hgood Hvals _ _ _ _ _ ev_prune); [exact Hn|apply C|exact H]. }
      apply good_one; [done|done|done|]. apply rbind_Ok in H as (d & H1 & H). apply Ok_inj in H as <-.
      unfold prune_old_data in H1. destruct (get_header _ _); [|done]. apply Ok_inj in H1 as <-. unfold tab. cbn [with_db nd_db with_tab db_tab].
      unfold prune_old_block_proofs. by destruct (_ || _).
    - exists w. pose proof (node_step_same E gt vals Hgood Hvals _ _ _ n ev_restart n' Hn H ltac:(done)) as S.
      apply good_mem; [done|done|]. by apply Ok_inj in H as <-.
  Qed.

  (** *** Histories *)
  Record watched_ok (A : H256) (l : list Db) (n : Node) : Prop := {
    wk_calm : exists As w, calm A As w n;
    wk_snap : forall d, d ∈ l -> snap A d;
    wk_to : forall d, d ∈ l -> kept_in (db_tab d) (tab n) /\ cp_slot (db_fin d) <= cp_slot (db_just (nd_db n));
    wk_pairs : pairs l;
    wk_last : last l = Some (nd_db n) }.
  Lemma history_ok l n : history E gt vals l n -> exists A, watched_ok A l n.
  Proof.
    intros (a & n0 & Ha & Hst & Hw). exists (db_head (nd_db n0)).
    destruct (started_facts E gt vals Hgood Hvals _ _ Ha Hst) as (Hn0 & Ho & _ & _).
    assert (calm (db_head (nd_db n0)) (s_slot a) {[db_head (nd_db n0) := stored_anchor hs a]} n0) as C0.
    { split; [done|done|]. intros B. by eapply start_rows. }
    induction Hw as [|l n e n' Hw IH Hs].
    - pose proof (head_slot_inv _ _ _ _ (proj1 Hn0) Ho) as Hhs. pose proof (di_fin_just _ _ _ _ _ _ _ (proj1 Hn0)) as Hfj.
      split; [by eexists _, _| | | |done].
      + intros d ->%elem_of_list_singleton. eapply snap_inv; [apply Hn0|apply C0].
      + intros d ->%elem_of_list_singleton. split; [apply kept_refl|done].
      + apply pairs_cons; [|apply pairs_nil|intros d H; by apply elem_of_nil in H]. split; [apply kept_refl|lia].
    - destruct IH as [(As & w & C) IS IT IP IL]. destruct (good_event _ _ _ _ _ _ C Hs) as (w' & [S C' [T1 T2 T3 T4 T5]]).
      split; [by eexists _, _| | | |].
      + intros d [Hd|Hd]%elem_of_app; [by apply IS|by apply T3].
      + intros d [Hd|Hd]%elem_of_app.
        * destruct (IT d Hd). split; [by eapply kept_trans|lia].
        * destruct (T3 d Hd). done.
      + apply pairs_app; [done|done|]. intros d d' Hd Hd'. destruct (IT d Hd) as [K F], (T3 d' Hd').
        split; [by eapply kept_trans|lia].
      + destruct (commits E n e) as [|x ds] eqn:Hc.
        * rewrite app_nil_r, IL. by cbn in T5.
        * rewrite last_app_cons. by rewrite <- T5.
  Qed.
  Lemma history_last l n : history E gt vals l n -> last l = Some (nd_db n).
  Proof. intros H. by destruct (history_ok _ _ H) as (A & []). Qed.

  (** *** Reads *)
  Lemma reads_in l : forall ds i d, reads_from l i ds -> d ∈ ds -> exists j, (i <= j)%nat /\ l !! j = Some d.
  Proof using.
    clear. intros ds. induction ds as [|x ds IH]; intros i d H Hd; [by apply elem_of_nil in Hd|].
    inversion H as [|i' j x' ds' Hij Hj Hr]; subst. apply elem_of_cons in Hd as [->|Hd]; [by exists j|].
    destruct (IH _ _ Hr Hd) as (k & Hk & Hl). exists k. split; [lia|done].
  Qed.
  Lemma reads_elem l ds d : reads l ds -> d ∈ ds -> d ∈ l.
  Proof using. clear. intros H Hd. destruct (reads_in _ _ _ _ H Hd) as (j & _ & Hj). by eapply elem_of_list_lookup_2. Qed.
  Lemma reads_order l ds1 d ds2 d' ds3 : forall i, reads_from l i (ds1 ++ d :: ds2 ++ d' :: ds3) ->
    exists j k, (j <= k)%nat /\ l !! j = Some d /\ l !! k = Some d'.
  Proof using.
    clear. induction ds1 as [|x ds1 IH]; intros i H; cbn [app] in H.
    - inversion H as [|i' j x' ds' Hij Hj Hr]; subst. destruct (reads_in _ _ _ d' Hr) as (k & Hk & Hl); [set_solver|]. by exists j, k.
    - inversion H as [|i' j x' ds' Hij Hj Hr]; subst. by eapply IH.
  Qed.
  Lemma reads_pair A l n ds1 d ds2 d' ds3 : watched_ok A l n -> reads l (ds1 ++ d :: ds2 ++ d' :: ds3) -> pair d d'.
  Proof. intros H Hr. destruct (reads_order _ _ _ _ _ _ _ Hr) as (j & k & Hjk & H1 & H2). by eapply (wk_pairs _ _ _ H). Qed.

  Lemma status_reads_ok l n d1 d2 d3 : history E gt vals l n -> reads l [d1; d2; d3] ->
    exists sl, status_reads d1 d2 d3 = Ok (mkStatus (db_fin d1) (mkCp (db_head d2) sl)) /\
      has_slot (db_tab d2) (db_head d2) sl /\ cp_slot (db_fin d1) <= sl.
  Proof.
    intros H Hr. destruct (history_ok _ _ H) as (A & W).
    destruct (sn_head _ _ (wk_snap _ _ _ W d2 (reads_elem _ _ d2 Hr ltac:(set_solver)))) as (s & _ & Hh & _).
    pose proof (reads_pair A l n [] d1 [] d2 [d3] W Hr) as P12. pose proof (reads_pair A l n [d1] d2 [] d3 [] W Hr) as P23.
    unfold status_reads, get_header. rewrite (ki_headers _ _ (pr_kept _ _ P23) _ _ Hh). eexists. split; [done|]. split.
    - by exists (s_header s).
    - pose proof (pr_fin _ _ P12) as F. unfold head_slot_of, slot_of in F. by rewrite Hh in F.
  Qed.
  Lemma syncing_reads_ok l n wall d1 d2 d3 : history E gt vals l n -> reads l [d1; d2; d3] ->
    exists sl, syncing_reads wall d1 d2 d3 = Ok (mkSyncing sl (wall - sl) (cp_slot (db_fin d3))) /\
      has_slot (db_tab d1) (db_head d1) sl.
  Proof.
    intros H Hr. destruct (history_ok _ _ H) as (A & W).
    destruct (sn_head _ _ (wk_snap _ _ _ W d1 (reads_elem _ _ d1 Hr ltac:(set_solver)))) as (s & _ & Hh & _).
    pose proof (reads_pair A l n [] d1 [] d2 [d3] W Hr) as P12.
    unfold syncing_reads, get_header. rewrite (ki_headers _ _ (pr_kept _ _ P12) _ _ Hh). eexists. split; [done|]. by exists (s_header s).
  Qed.
  Lemma head_state_ok A l n d1 d2 ds1 ds2 : watched_ok A l n -> reads l (ds1 ++ d1 :: d2 :: ds2) ->
    exists s, head_state_reads d1 d2 = Ok s /\ read_state (db_tab d1) (db_head d1) = Ok (Some s) /\ lenN (s_validators s) = lenN vals.
  Proof.
    intros W Hr. destruct (sn_head _ _ (wk_snap _ _ _ W d1 (reads_elem _ _ d1 Hr ltac:(set_solver)))) as (s & Hs & _ & Hv).
    pose proof (reads_pair A l n ds1 d1 [] d2 ds2 W Hr) as P12. exists s. unfold head_state_reads.
    by rewrite (ki_states _ _ (pr_kept _ _ P12) _ _ Hs).
  Qed.
  Lemma header_reads_ok l n slot d1 d2 d3 : history E gt vals l n -> reads l [d1; d2; d3] ->
    exists x, header_reads slot d1 d2 d3 = Ok x /\ x <> HInvalid /\
      (forall h, header_reads slot d1 d1 d1 = Ok (HOk h) -> x = HOk h) /\
      (forall h, x = HOk h -> exists s, read_state (db_tab d1) (db_head d1) = Ok (Some s) /\
         getN (s_hist s) slot = Some (hh h) /\ t_headers (db_tab d3) !! hh h = Some h).
  Proof.
    intros H Hr. destruct (history_ok _ _ H) as (A & W).
    destruct (head_state_ok A l n d1 d2 [] [d3] W Hr) as (s & Hs & Hs1 & _).
    pose proof (reads_pair A l n [] d1 [d2] d3 [] W Hr) as P13.
    pose proof (wk_snap _ _ _ W d3 (reads_elem _ _ d3 Hr ltac:(set_solver))) as N3.
    unfold header_reads. rewrite Hs. cbn [rbind]. unfold head_state_reads at 1. rewrite Hs1. cbn [expect rbind].
    destruct (getN (s_hist s) slot) as [root|] eqn:Hg; [|by eexists].
    destruct (N.eqb_spec root ZERO) as [->|Hz]; [by eexists|].
    unfold get_header. eexists. split; [done|]. split; [by destruct (t_headers _ !! _)|]. split.
    - intros h Hh. destruct (t_headers (db_tab d1) !! root) as [h1|] eqn:H1; [|done]. injection Hh as ->.
      by rewrite (ki_headers _ _ (pr_kept _ _ P13) _ _ H1).
    - intros h Hh. destruct (t_headers (db_tab d3) !! root) as [h1|] eqn:H1; [|done]. injection Hh as ->.
      pose proof (sn_hash _ _ N3 _ _ H1) as <-. by exists s.
  Qed.

  Lemma fork_choice_reads_ok l n V d1 d2 d3 d4 d5 d6 d7 dh :
    history E gt vals l n -> (forall r, reads l [d1; d2; d3; d4; d5; d6; d7; dh r]) ->
    exists R, fork_choice_reads (map_to_list V) d1 d2 d3 d4 d5 d6 d7 dh = Ok R /\
      fcr_head R = db_head d4 /\ fcr_safe R = db_safe d5 /\
      fcr_justified R = db_just d2 /\ fcr_finalized R = db_fin d3 /\ fcr_validators R = lenN vals /\
      NoDup (map fcn_root (fcr_nodes R)) /\
      (forall r, r ∈ map fcn_root (fcr_nodes R) <-> is_Some (live_chain (db_tab d1) !! r)) /\
      forall x, x ∈ fcr_nodes R -> exists h, t_headers (db_tab d1) !! fcn_root x = Some h /\
        fcn_slot x = h_slot h /\ fcn_parent x = h_parent h /\ fcn_proposer x = h_proposer h /\
        (if h_slot h <=? cp_slot (db_fin d3) then fcn_weight x = 0
         else counts (fcn_weight x) (votes_for_subtree (live_chain (db_tab d1)) V (fcn_root x))).
  Proof.
    intros H Hr. destruct (history_ok _ _ H) as (A & W). pose proof (Hr 0) as Hr0.
    destruct (head_state_ok A l n d6 d7 [d1; d2; d3; d4; d5] [dh 0] W Hr0) as (s & Hs & _ & Hv).
    pose proof (wk_snap _ _ _ W d1 (reads_elem _ _ d1 Hr0 ltac:(set_solver))) as N1.
    pose proof (sn_dec _ _ N1) as Hdec. set (m := live_chain (db_tab d1)) in *.
    assert ((list_to_map (map_to_list m) : BlockTree) = m) as Hm by (apply list_to_map_to_list).
    destruct (C16_weights_terminate_pf (cp_slot (db_fin d3)) (map_to_list m) (map_to_list V)) as (Wt & HW); [by rewrite Hm|].
    unfold fork_choice_reads. fold m. rewrite HW, Hs. cbn [rbind]. eexists. split; [reflexivity|].
    cbn [fcr_head fcr_safe fcr_justified fcr_finalized fcr_validators fcr_nodes]. rewrite Hv.
    rewrite map_map. cbn [fcn_root]. split_and!; try done.
    - apply NoDup_fst_map_to_list.
    - intros r. rewrite elem_of_map. split.
      + intros ([r' y] & -> & Hin). apply elem_of_map_to_list in Hin. cbn. by exists y.
      + intros [y Hy]. exists (r, y). split; [done|]. by apply elem_of_map_to_list.
    - intros x Hx. apply elem_of_map in Hx as ([r [sl p]] & -> & Hin). apply elem_of_map_to_list in Hin.
      cbn [fcn_root fcn_slot fcn_parent fcn_proposer fcn_weight fst snd].
      destruct (sn_live _ _ N1 _ _ _ Hin) as (h & Hh & <- & <-). exists h.
      pose proof (reads_pair A l n [] d1 [d2; d3; d4; d5; d6; d7] (dh r) [] W (Hr r)) as P.
      unfold get_header. rewrite (ki_headers _ _ (pr_kept _ _ P) _ _ Hh). split_and!; try done.
      destruct (N.leb_spec (h_slot h) (cp_slot (db_fin d3))) as [Hle|Hlt].
      + rewrite (weights_low _ _ _ _ r) with (2 := HW); [done|by rewrite Hm|]. rewrite Hm. intros s1 p1 H1.
        rewrite Hin in H1. injection H1 as <- <-. done.
      + pose proof (C16_weight_is_subtree_votes_pf _ _ _ _ r (h_slot h) (h_parent h) (NoDup_fst_map_to_list V)
          ltac:(by rewrite Hm) HW ltac:(by rewrite Hm) Hlt) as Hc.
        by rewrite Hm, list_to_map_to_list in Hc.
  Qed.

  (** *** Ranges *)
  Lemma path_ancestor t A r l x : path t A r l -> x ∈ l -> ancestor t x r.
  Proof using.
    clear. induction 1 as [h Hh|r h l Hne Hh Hp IH]; intros Hx.
    - apply elem_of_list_singleton in Hx as ->. by econstructor.
    - apply elem_of_cons in Hx as [->|Hx]; [by eapply an_refl|]. eapply an_step; [done|by apply IH].
  Qed.
  Lemma snap_chain A d r l x : snap A d -> path (db_tab d) A r l -> ancestor (db_tab d) x r -> x ∈ l.
  Proof.
    intros N Hp. induction Hp as [h Hh|r h l Hne Hh Hp IH]; intros Ha.
    - inversion Ha as [h' Hh'|r' h' Hh' Ha']; subst; [left|]. rewrite Hh in Hh'. injection Hh' as <-.
      apply ancestor_stored in Ha' as [hp Hhp]. by rewrite (sn_anchor _ _ N _ Hh) in Hhp.
    - inversion Ha as [h' Hh'|r' h' Hh' Ha']; subst; [left|]. rewrite Hh in Hh'. injection Hh' as <-. right. by apply IH.
  Qed.
  Lemma snap_index A d s r : snap A d ->
    t_roots (db_tab d) !! s = Some r <-> ancestor (db_tab d) r (db_head d) /\ has_slot (db_tab d) r s.
  Proof.
    intros N. rewrite (sn_index _ _ N s r). split.
    - intros (l & h & Hp & Hr & Hh & Hs). split; [by eapply path_ancestor|by exists h].
    - intros [Ha (h & Hh & Hs)]. destruct (sn_path _ _ N) as (l & Hp). exists l, h. split_and!; try done. by eapply snap_chain.
  Qed.
  Lemma signed_reads_root A d1 d2 d3 r sb : snap A d1 -> snap A d2 -> kept_in (db_tab d1) (db_tab d2) ->
    signed_block_reads E d1 d2 d3 r = Some sb ->
    sb_root E sb = r /\ exists h, t_headers (db_tab d1) !! r = Some h /\ b_slot (sb_block sb) = h_slot h.
  Proof.
    intros N1 N2 K H. unfold signed_block_reads in H. destruct (t_headers (db_tab d1) !! r) as [h|] eqn:Hh; [|done].
    destruct (if h_body_root h =? EMPTY_BODY_ROOT hb then Some [] else t_bodies (db_tab d2) !! r) as [body|] eqn:Hb; [|done].
    assert (sb_block sb = from_header_and_body h body) as Hsb.
    { destruct (t_proofs _ !! _); [by injection H as <-|]. destruct (h_slot h =? 0); [by injection H as <-|done]. }
    unfold sb_root. rewrite Hsb. split; [|by exists h].
    pose proof (sn_rows _ _ N2 (r + 1) r h body ltac:(lia) (ki_headers _ _ K _ _ Hh) Hb) as Hbody.
    rewrite <- (sn_hash _ _ N1 _ _ Hh). unfold block_root. f_equal. destruct h. unfold header_of, from_header_and_body. cbn in *. by rewrite Hbody.
  Qed.
  Lemma reads_later l i j ds : (j <= i)%nat -> reads_from l i ds -> reads_from l j ds.
  Proof using. clear. intros Hij H. inversion H; subst; [constructor|]. econstructor; [|done|done]. lia. Qed.
  Lemma reads_tail l d ds : reads l (d :: ds) -> reads l ds.
  Proof using. clear. intros H. inversion H; subst. eapply reads_later; [|done]. lia. Qed.
  Lemma reads_drop l ds1 ds2 : reads l (ds1 ++ ds2) -> reads l ds2.
  Proof using. clear. induction ds1 as [|x ds1 IH]; [done|]. intros H. by apply IH, (reads_tail _ x). Qed.
  Lemma range_step A l n d0 d1 d2 d3 ds s r sb : watched_ok A l n -> reads l (d0 :: d1 :: d2 :: d3 :: ds) ->
    t_roots (db_tab d0) !! s = Some r -> signed_block_reads E d1 d2 d3 r = Some sb ->
    b_slot (sb_block sb) = s /\ ancestor (db_tab d0) (sb_root E sb) (db_head d0) /\ sb_root E sb = r.
  Proof.
    intros W Hr Hi Hs.
    assert (forall d, d ∈ [d0; d1; d2; d3] -> snap A d) as Hn.
    { intros d Hd. apply (wk_snap _ _ _ W). apply (reads_elem _ _ _ Hr). set_solver. }
    pose proof (reads_pair A l n [] d0 [] d1 (d2 :: d3 :: ds) W Hr) as P01.
    pose proof (reads_pair A l n [d0] d1 [] d2 (d3 :: ds) W Hr) as P12.
    destruct (signed_reads_root A _ _ _ _ _ (Hn d1 ltac:(set_solver)) (Hn d2 ltac:(set_solver)) (pr_kept _ _ P12) Hs) as (Hroot & h & Hh & Hsl).
    apply (snap_index A) in Hi as [Ha (h0 & Hh0 & Hs0)]; [|apply Hn; set_solver].
    apply (ki_headers _ _ (pr_kept _ _ P01)) in Hh0. rewrite Hh in Hh0. injection Hh0 as ->.
    rewrite Hroot. split_and!; [lia|done|done].
  Qed.
  Lemma range_reads_sound l n ds : history E gt vals l n -> forall start, reads l (range_dbs ds) ->
    let R := range_reads E start ds in
    StronglySorted N.lt (map (fun sb => b_slot (sb_block sb)) R) /\
    forall sb, sb ∈ R -> start <= b_slot (sb_block sb) < start + lenN ds /\
      exists x d, x ∈ ds /\ d = x.1.1.1 /\ ancestor (db_tab d) (sb_root E sb) (db_head d).
  Proof.
    intros H. destruct (history_ok _ _ H) as (A & W). induction ds as [|[[[d0 d1] d2] d3] ds IH]; intros start Hr; cbn [range_reads].
    { cbn. split; [constructor|]. intros sb Hsb. by apply elem_of_nil in Hsb. }
    cbn [range_dbs map concat app] in Hr. fold (range_dbs ds) in Hr.
    pose proof (reads_drop l [d0; d1; d2; d3] (range_dbs ds) Hr) as Hr'.
    destruct (IH (start + 1) Hr') as [IS IR]. clear IH. cbv zeta in *.
    assert (forall sb, sb ∈ range_reads E (start + 1) ds -> start <= b_slot (sb_block sb) < start + lenN ((d0, d1, d2, d3) :: ds) /\
      exists x d, x ∈ (d0, d1, d2, d3) :: ds /\ d = x.1.1.1 /\ ancestor (db_tab d) (sb_root E sb) (db_head d)) as Hrest.
    { intros sb Hsb. destruct (IR sb Hsb) as (Hb & x & d & Hx & ? & ?). unfold lenN in *. cbn [length]. split; [lia|].
      exists x, d. split; [by right|done]. }
    destruct (t_roots (db_tab d0) !! start) as [r|] eqn:Hi; [|done].
    destruct (signed_block_reads E d1 d2 d3 r) as [sb|] eqn:Hs; [|done].
    destruct (range_step A l n _ _ _ _ _ _ _ _ W Hr Hi Hs) as (Hsl & Ha & _). split.
    - cbn [map]. constructor; [done|]. apply Forall_forall. intros x Hx. apply elem_of_map in Hx as (sb' & -> & Hsb').
      destruct (IR sb' Hsb') as [? _]. lia.
    - intros sb' Hsb'. apply elem_of_cons in Hsb' as [->|Hsb']; [|by apply Hrest].
      split; [unfold lenN; cbn [length]; lia|]. exists (d0, d1, d2, d3), d0. split; [left|]. done.
  Qed.
  Lemma range_reads_complete l n ds : history E gt vals l n -> forall start i d0 d1 d2 d3 r, reads l (range_dbs ds) ->
    ds !! i = Some (d0, d1, d2, d3) ->
    ancestor (db_tab d0) r (db_head d0) -> has_slot (db_tab d0) r (start + N.of_nat i) ->
    is_Some (get_signed_block hb (db_tab d0) r) -> is_Some (get_signed_block hb (db_tab d3) r) ->
    exists sb, sb ∈ range_reads E start ds /\ sb_root E sb = r.
  Proof.
    intros H. destruct (history_ok _ _ H) as (A & W). induction ds as [|[[[e0 e1] e2] e3] ds IH]; intros start i d0 d1 d2 d3 r Hr Hds Ha Hsl H0 H3; [done|].
    cbn [range_dbs map concat app] in Hr. fold (range_dbs ds) in Hr.
    destruct i as [|i]; cbn [lookup list_lookup] in Hds.
    - injection Hds as -> -> -> ->. rewrite N.add_0_r in Hsl.
      assert (forall d, d ∈ [d0; d1; d2; d3] -> snap A d) as Hn.
      { intros d Hd. apply (wk_snap _ _ _ W). apply (reads_elem _ _ _ Hr). set_solver. }
      assert (t_roots (db_tab d0) !! start = Some r) as Hi by (apply (snap_index A); [apply Hn; set_solver|done]).
      pose proof (reads_pair A l n [] d0 [] d1 (d2 :: d3 :: range_dbs ds) W Hr) as P01.
      pose proof (reads_pair A l n [] d0 [d1] d2 (d3 :: range_dbs ds) W Hr) as P02.
      pose proof (reads_pair A l n [] d0 [d1; d2] d3 (range_dbs ds) W Hr) as P03.
      assert (is_Some (signed_block_reads E d1 d2 d3 r)) as [sb Hs].
      { destruct H0 as [sb0 H0], H3 as [sb3 H3]. unfold get_signed_block in H0, H3. unfold signed_block_reads.
        destruct (t_headers (db_tab d0) !! r) as [h|] eqn:Hh; [|done].
        rewrite (ki_headers _ _ (pr_kept _ _ P01) _ _ Hh). rewrite (ki_headers _ _ (pr_kept _ _ P03) _ _ Hh) in H3.
        destruct (h_body_root h =? EMPTY_BODY_ROOT hb).
        - destruct (t_proofs (db_tab d3) !! _); [by eexists|]. destruct (h_slot h =? 0); [by eexists|done].
        - destruct (t_bodies (db_tab d0) !! r) as [b0|] eqn:Hb0; [|done].
          destruct (ki_bodies _ _ (pr_kept _ _ P02) r ltac:(by eexists)) as [b2 ->].
          destruct (t_bodies (db_tab d3) !! r); [|done].
          destruct (t_proofs (db_tab d3) !! _); [by eexists|]. destruct (h_slot h =? 0); [by eexists|done]. }
      exists sb. cbn [range_reads]. rewrite Hi, Hs. split; [left|]. by eapply (range_step A l n).
    - pose proof (reads_drop l [e0; e1; e2; e3] (range_dbs ds) Hr) as Hr'.
      destruct (IH (start + 1) i d0 d1 d2 d3 r Hr' Hds Ha) as (sb & Hsb & Hroot); [|done|done|].
      { replace (start + 1 + N.of_nat i) with (start + N.of_nat (S i)) by lia. done. }
      exists sb. split; [|done]. cbn [range_reads]. destruct (t_roots _ !! _); [|done]. destruct (signed_block_reads _ _ _ _ _); [by right|done].
  Qed.
  Lemma ancestor_kept t t' x r : kept_in t t' -> ancestor t x r -> ancestor t' x r.
  Proof using.
    clear. intros K. induction 1 as [h Hh|r h Hh Ha IH]; [eapply an_refl; by apply K|]. eapply an_step; [by apply K|done].
  Qed.
  Lemma ancestor_through t x y r : ancestor t x y -> ancestor t y r -> ancestor t x r.
  Proof using. clear. intros Hx. induction 1 as [h Hh|r h Hh Ha IH]; [done|]. eapply an_step; [done|done]. Qed.
  Lemma range_reads_steady l n ds start dl : history E gt vals l n -> reads l (range_dbs ds ++ [dl]) ->
    (forall d, d ∈ range_dbs ds -> ancestor (db_tab dl) (db_head d) (db_head dl)) ->
    forall sb, sb ∈ range_reads E start ds -> ancestor (db_tab dl) (sb_root E sb) (db_head dl).
  Proof.
    intros H Hr Hone sb Hsb. destruct (history_ok _ _ H) as (A & W).
    assert (reads l (range_dbs ds)) as Hr1.
    { clear -Hr. unfold reads in *. revert Hr. generalize 0%nat. induction (range_dbs ds) as [|x xs IH]; intros i Hr; [constructor|].
      cbn [app] in Hr. inversion Hr; subst. econstructor; [done|done|by apply IH]. }
    destruct (proj2 (range_reads_sound l n ds H start Hr1) sb Hsb) as (_ & [[[d0 d1] d2] d3] & d & Hx & -> & Ha). cbn [fst] in Ha.
    assert (d0 ∈ range_dbs ds) as Hd.
    { apply elem_of_list_In, in_concat. exists [d0; d1; d2; d3]. split; [|by left].
      apply elem_of_list_In, elem_of_map. by exists (d0, d1, d2, d3). }
    eapply ancestor_through; [|by apply Hone].
    apply elem_of_list_split in Hd as (l1 & l2 & Heq). rewrite Heq, <- app_assoc in Hr. cbn [app] in Hr.
    pose proof (reads_pair A l n l1 d0 l2 dl [] W Hr) as P. by eapply ancestor_kept; [apply P|].
  Qed.
  Lemma signed_reads_ok l n d1 d2 d3 r sb : history E gt vals l n -> reads l [d1; d2; d3] ->
    signed_block_reads E d1 d2 d3 r = Some sb -> sb_root E sb = r.
  Proof.
    intros H Hr Hs. destruct (history_ok _ _ H) as (A & W).
    assert (forall d, d ∈ [d1; d2; d3] -> snap A d) as Hn.
    { intros d Hd. apply (wk_snap _ _ _ W). by apply (reads_elem _ _ _ Hr). }
    by apply (signed_reads_root A _ _ _ _ _ (Hn d1 ltac:(set_solver)) (Hn d2 ltac:(set_solver)) (pr_kept _ _ (reads_pair A l n [] d1 [] d2 [d3] W Hr)) Hs).
  Qed.
End ConcProofs.
