(** Invariants of block fetching and range sync. *)
From Verif Require Export SyncSpec.
Local Open Scope N_scope.

Lemma choose_in pick pool p : choose pick pool = Some p -> p ∈ pool.
Proof.
  unfold choose. destruct (decide (pick ∈ pool)); [by intros [= <-]|].
  intros H. apply elem_of_elements. destruct (elements pool); [done|].
  simplify_eq/=. left.
Qed.
Lemma choose_some pick pool : pool <> ∅ -> exists p, choose pick pool = Some p.
Proof.
  unfold choose. destruct (decide (pick ∈ pool)); [eauto|]. intros H.
  destruct (elements pool) eqn:E; [|simpl; eauto]. exfalso. apply H. apply leibniz_equiv. by apply elements_empty_inv.
Qed.

Lemma best_head_spec (m : gmap N N) :
  (forall q h, m !! q = Some h -> h <= best_head m) /\
  (m <> ∅ -> exists q, m !! q = Some (best_head m)).
Proof.
  unfold best_head.
  cut ((forall q h, m !! q = Some h -> h <= map_fold (fun _ h acc => N.max h acc) 0 m) /\
    ((m = ∅ /\ map_fold (fun (_ : N) h acc => N.max h acc) 0 m = 0) \/
     exists q, m !! q = Some (map_fold (fun _ h acc => N.max h acc) 0 m))).
  { intros [H1 H2]. split; [done|]. intros Hne. destruct H2 as [[? _]|?]; done. }
  apply (map_fold_ind (fun x (mm : gmap N N) => (forall q h, mm !! q = Some h -> h <= x) /\
    ((mm = ∅ /\ x = 0) \/ exists q, mm !! q = Some x))).
  - split; [intros q h; by rewrite lookup_empty|by left].
  - intros i x mm r Hi [IH1 IH2]. split.
    + intros q h Hq. destruct (decide (q = i)) as [->|Hne].
      * rewrite lookup_insert in Hq. simplify_eq. lia.
      * rewrite lookup_insert_ne in Hq by done. specialize (IH1 _ _ Hq). lia.
    + right. destruct IH2 as [[-> ->]|[q Hq]].
      * exists i. rewrite lookup_insert. f_equal. lia.
      * destruct (N.le_gt_cases r x) as [Hle|Hgt].
        -- exists i. rewrite lookup_insert. f_equal. lia.
        -- exists q. rewrite lookup_insert_ne by congruence. rewrite Hq. f_equal. lia.
Qed.

Lemma best_peer_spec pick m p h :
  best_peer pick m = Some (p, h) -> m !! p = Some h /\ (forall q h', m !! q = Some h' -> h' <= h).
Proof.
  unfold best_peer. destruct (choose pick _) as [x|] eqn:Hc; [|done]. intros [= -> <-].
  apply choose_in in Hc. apply elem_of_list_to_set, elem_of_list_In, in_map_iff in Hc.
  destruct Hc as [[q h'] [Hq Hin]]. cbn in Hq. subst q.
  apply elem_of_list_In, elem_of_map_to_list, map_filter_lookup_Some in Hin. destruct Hin as [Hin Hh]. cbn in Hh.
  subst h'. split; [done|]. apply best_head_spec.
Qed.
Lemma best_peer_some pick m : m <> ∅ -> exists ph, best_peer pick m = Some ph.
Proof.
  intros Hne. unfold best_peer.
  destruct (best_head_spec m) as [_ Hb]. destruct (Hb Hne) as [q Hq].
  destruct (choose_some pick (list_to_set (map fst (map_to_list (filter (fun x : N * N => x.2 = best_head m) m))) : gset N)) as [x Hx].
  - intros He. assert (q ∈ (∅ : gset N)) as Hin; [|set_solver]. rewrite <- He.
    apply elem_of_list_to_set, elem_of_list_In, in_map_iff. exists (q, best_head m). split; [done|].
    apply elem_of_list_In, elem_of_map_to_list, map_filter_lookup_Some. done.
  - rewrite Hx. eauto.
Qed.

(** ** [RangeSyncState] *)
Lemma next_batch_spec pick r p a e :
  next_batch pick r = Some (p, (a, e)) ->
  rs_flight r = false /\ a = rs_start r /\ a < e /\ e <= rs_end r /\ e <= a + 1024 /\ e <= two64 - 1 /\
  exists h, rs_peers r !! p = Some h /\ a <= h /\ e <= h + 1 /\ forall q h', rs_peers r !! q = Some h' -> h' <= h.
Proof.
  unfold next_batch. destruct (rs_flight r); [done|]. cbn [orb].
  destruct (rs_end r <=? rs_start r) eqn:He; [done|].
  destruct (best_peer pick _) as [[q h]|] eqn:Hb; [|done].
  apply best_peer_spec in Hb as [Hp Hmax]. apply map_filter_lookup_Some in Hp as [Hp Hle]. cbn in Hle.
  destruct (rs_start r <? _) eqn:Hlt; [|done]. intros [= <- <- <-].
  unfold sat_add, MAX_REQUEST_BLOCKS in *. split_and!; try done; try lia.
  exists h. split_and!; [done|done|lia|]. intros q' h' Hq'.
  destruct (N.le_gt_cases (rs_start r) h') as [Hle'|]; [|lia].
  apply (Hmax q'). apply map_filter_lookup_Some. done.
Qed.
Lemma next_batch_none pick r :
  next_batch pick r = None -> rs_flight r = false -> rs_start r < rs_end r -> rs_end r <= two64 - 1 ->
  forall p h, rs_peers r !! p = Some h -> h < rs_start r.
Proof.
  unfold next_batch. intros Hn Hf Hlt Hbd p h Hp. rewrite Hf in Hn. cbn [orb] in Hn.
  destruct (N.lt_ge_cases h (rs_start r)) as [|Hge]; [done|]. exfalso.
  replace (rs_end r <=? rs_start r) with false in Hn by (symmetry; lia).
  destruct (best_peer_some pick (filter (fun x : N * N => rs_start r <= x.2) (rs_peers r))) as [[q hq] Hq].
  - intros He. assert (filter (fun x : N * N => rs_start r <= x.2) (rs_peers r) !! p = Some h) as Hx.
    { apply map_filter_lookup_Some. done. }
    rewrite He in Hx. by rewrite lookup_empty in Hx.
  - rewrite Hq in Hn. apply best_peer_spec in Hq as [Hq _]. apply map_filter_lookup_Some in Hq as [_ Hq]. cbn in Hq.
    destruct (rs_start r <? _) eqn:Hx; [done|]. unfold sat_add, MAX_REQUEST_BLOCKS, two64 in *. lia.
Qed.

(** ** The invariant *)
Definition inv_ids (live : gmap N (N * Kind)) (out : gmap N Kind) (next : N) : Prop :=
  (forall id x, live !! id = Some x -> id < next) /\
  (forall id p k, live !! id = Some (p, k) -> out !! id = Some k).
Record inv_range (live : gmap N (N * Kind)) (rg : option RangeSync) : Prop := {
  ir_live : forall id p a e, live !! id = Some (p, KRange a e) -> exists r, rg = Some r /\
    rs_flight r = true /\ rs_start r = a /\ a <= e /\ e < rs_end r /\ e < a + 1024 /\ e < two64 - 1;
  ir_one : forall id id' p p' a e a' e', live !! id = Some (p, KRange a e) ->
    live !! id' = Some (p', KRange a' e') -> id = id';
  ir_flight : forall r, rg = Some r -> rs_flight r = true -> exists id p a e, live !! id = Some (p, KRange a e);
  ir_peers : forall r p h, rg = Some r -> rs_peers r !! p = Some h -> rs_start r <= h;
  ir_end : forall r, rg = Some r -> rs_end r <= two64 - 1 }.
Record inv_root (live : gmap N (N * Kind)) (timers : list H256) (pending : gmap H256 Pending) : Prop := {
  io_live : forall id p r, live !! id = Some (p, KRoot r) -> exists pd, pending !! r = Some pd;
  io_timer : forall r, r ∈ timers -> exists pd, pending !! r = Some pd;
  io_one : forall id id' p p' r, live !! id = Some (p, KRoot r) -> live !! id' = Some (p', KRoot r) -> id = id';
  io_nodup : NoDup timers;
  io_apart : forall id p r, live !! id = Some (p, KRoot r) -> r ∉ timers;
  io_attempts : forall r pd, pending !! r = Some pd -> 1 <= pd_attempts pd <= 10 }.
Definition inv (n : Net) : Prop :=
  inv_ids (nt_live n) (sv_out (nt_srv n)) (nt_next n) /\
  inv_range (nt_live n) (sv_range (nt_srv n)) /\
  inv_root (nt_live n) (nt_timers n) (sv_pending (nt_srv n)).

Lemma inv_net0 : inv net0.
Proof.
  unfold inv, net0; cbn [nt_live nt_srv nt_next nt_timers sv_out sv_range sv_pending]. split_and!.
  - split; intros *; by rewrite lookup_empty.
  - split; intros *; rewrite ?lookup_empty; done.
  - split; intros *; rewrite ?lookup_empty; try done; [intros H; by apply elem_of_nil in H|constructor].
Qed.

(** ** What the parts of the handlers do *)
Definition fset (s : Server) (r : H256) : gset N :=
  match sv_pending s !! r with Some pd => pd_failed pd | None => ∅ end.

Lemma fetch_spec oc s r s' acts ok :
  fetch_block_from_peer oc s r = (s', acts, ok) ->
  sv_chain s' = sv_chain s /\ sv_connected s' = sv_connected s /\ sv_range s' = sv_range s /\
  (forall r', r' <> r -> sv_pending s' !! r' = sv_pending s !! r') /\
  ((ok = false /\ acts = [] /\ sv_out s' = sv_out s /\
    (sv_pending s !! r = None -> sv_pending s' !! r = None) /\
    (forall pd, sv_pending s !! r = Some pd -> exists f, sv_pending s' !! r = Some (mkPending (pd_attempts pd) f)) /\
    (sv_connected s = ∅ \/ oc_sent oc = None)) \/
   (ok = true /\ exists id p, oc_sent oc = Some id /\ acts = [SendRoot id p r] /\ p ∈ sv_connected s /\
    sv_out s' = <[id := KRoot r]> (sv_out s) /\
    (sv_pending s !! r = None -> sv_pending s' !! r = Some (mkPending 1 ∅)) /\
    (forall pd, sv_pending s !! r = Some pd ->
      (p ∉ pd_failed pd /\ sv_pending s' !! r = Some pd) \/
      (sv_connected s ⊆ pd_failed pd /\ sv_pending s' !! r = Some (mkPending (pd_attempts pd) ∅))))).
Proof.
  unfold fetch_block_from_peer. destruct (decide (sv_connected s = ∅)) as [He|He].
  { intros [= <- <- <-]. split_and!; try done. left. split_and!; try done.
    - intros pd ->. exists (pd_failed pd). by destruct pd.
    - by left. }
  fold (fset s r). destruct (decide (sv_connected s ∖ fset s r = ∅)) as [Hp|Hp].
  - destruct (choose_some (oc_pick oc) (sv_connected s) He) as [p Hc]. rewrite Hc.
    pose proof (choose_in _ _ _ Hc) as Hin.
    assert (exists pd, sv_pending s !! r = Some pd) as [pd Hpd].
    { unfold fset in Hp. destruct (sv_pending s !! r); [eauto|]. set_solver. }
    assert (sv_connected s ⊆ pd_failed pd) as Hsub.
    { unfold fset in Hp. rewrite Hpd in Hp. intros x Hx. destruct (decide (x ∈ pd_failed pd)); [done|].
      assert (x ∈ (∅ : gset N)); [rewrite <- Hp; set_solver|set_solver]. }
    destruct (oc_sent oc) as [id|] eqn:Hs.
    + cbn. rewrite lookup_alter, Hpd. cbn. intros [= <- <- <-]. cbn.
      split_and!; try done. { intros r' Hr'. by rewrite lookup_alter_ne. }
      right. split; [done|]. exists id, p. split_and!; try done.
      intros pd' [= <-]. right. rewrite lookup_alter, Hpd. done.
    + intros [= <- <- <-]. cbn. split_and!; try done. { intros r' Hr'. by rewrite lookup_alter_ne. }
      left. split_and!; try done.
      * congruence.
      * intros pd' Hpd'. rewrite lookup_alter, Hpd'. cbn. eauto.
      * by right.
  - destruct (choose_some (oc_pick oc) _ Hp) as [p Hc]. rewrite Hc.
    apply choose_in in Hc. apply elem_of_difference in Hc as [Hin Hnf].
    destruct (oc_sent oc) as [id|] eqn:Hs.
    + destruct (sv_pending s !! r) as [pd|] eqn:Hpd.
      * intros [= <- <- <-]. cbn. split_and!; try done. right. split; [done|]. exists id, p.
        split_and!; try done. intros pd' [= <-]. left. split; [|done]. unfold fset in Hnf. by rewrite Hpd in Hnf.
      * intros [= <- <- <-]. cbn. split_and!; try done. { intros r' Hr'. by rewrite lookup_insert_ne. }
        right. split; [done|]. exists id, p. split_and!; try done. intros _. by rewrite lookup_insert.
    + intros [= <- <- <-]. split_and!; try done. left. split_and!; try done.
      * intros pd Hpd. exists (pd_failed pd). rewrite Hpd. by destruct pd.
      * by right.
Qed.

Lemma failure_spec s r p s' acts :
  handle_fetch_failure s r p = (s', acts) ->
  sv_chain s' = sv_chain s /\ sv_connected s' = sv_connected s /\ sv_range s' = sv_range s /\ sv_out s' = sv_out s /\
  (forall r', r' <> r -> sv_pending s' !! r' = sv_pending s !! r') /\
  ((sv_pending s !! r = None /\ acts = [] /\ sv_pending s' !! r = None) \/
   exists pd, sv_pending s !! r = Some pd /\
     ((10 <= pd_attempts pd /\ acts = [] /\ sv_pending s' !! r = None) \/
      (pd_attempts pd < 10 /\ acts = [RetryAfter r (5 * 2 ^ (pd_attempts pd - 1))] /\
       sv_pending s' !! r = Some (mkPending (pd_attempts pd + 1) ({[p]} ∪ pd_failed pd))))).
Proof.
  unfold handle_fetch_failure. destruct (sv_pending s !! r) as [pd|] eqn:Hpd.
  - destruct (MAX_FETCH_RETRIES <=? pd_attempts pd) eqn:Hle; unfold MAX_FETCH_RETRIES in Hle.
    + intros [= <- <-]. cbn. split_and!; try done. { intros r' Hr'. by rewrite lookup_delete_ne. }
      right. exists pd. split; [done|]. left. split_and!; [lia|done|]. by rewrite lookup_delete.
    + intros [= <- <-]. cbn. split_and!; try done. { intros r' Hr'. by rewrite lookup_insert_ne. }
      right. exists pd. split; [done|]. right. split_and!; [lia|done|]. by rewrite lookup_insert.
  - intros [= <- <-]. split_and!; try done. left. done.
Qed.

Lemma root_loop_spec root_of s r bs s' acts :
  root_loop root_of s r bs = (s', acts) ->
  sv_chain s' = sv_chain s /\ sv_connected s' = sv_connected s /\ sv_range s' = sv_range s /\ sv_out s' = sv_out s /\
  (forall r', r' <> r -> sv_pending s' !! r' = sv_pending s !! r') /\
  (forall x, x ∈ acts <-> exists b, x = Deliver b /\ b ∈ bs /\ root_of b = r /\ sv_chain s = true) /\
  ((exists b, b ∈ bs /\ root_of b = r) -> sv_pending s' !! r = None) /\
  ((forall b, b ∈ bs -> root_of b <> r) -> s' = s /\ acts = []).
Proof.
  revert s s' acts. induction bs as [|b bs IH]; intros s s' acts.
  - intros [= <- <-]. split_and!; try done.
    + intros x. split; [by intros ?%elem_of_nil|]. intros (b & _ & Hb & _). by apply elem_of_nil in Hb.
    + intros (b & Hb & _). by apply elem_of_nil in Hb.
  - cbn [root_loop]. destruct (decide (root_of b = r)) as [Hb|Hb].
    + destruct (root_loop root_of _ r bs) as [s2 a2] eqn:Hl. intros [= <- <-].
      destruct (IH _ _ _ Hl) as (H1 & H2 & H3 & H4 & H5 & H6 & H7 & H8). cbn in *.
      split_and!; try done.
      * intros r' Hr'. rewrite H5 by done. rewrite lookup_delete_ne by congruence. done.
      * intros x. rewrite elem_of_app, H6. destruct (sv_chain s).
        -- rewrite elem_of_list_singleton. split.
           ++ intros [->|(b' & -> & Hb' & ? & _)]; [exists b; split_and!; [done|left|done|done]|].
              exists b'. split_and!; [done|by right|done|done].
           ++ intros (b' & -> & Hb' & ? & _). apply elem_of_cons in Hb' as [->|Hb']; [by left|]. right. eauto.
        -- split; [intros [?%elem_of_nil|(b' & ? & ? & ? & ?)]; done|]. intros (b' & ? & ? & ? & ?). done.
      * intros _. destruct (decide (Exists (fun b => root_of b = r) bs)) as [Hex|Hex].
        -- apply Exists_exists in Hex. by apply H7.
        -- destruct H8 as [-> _]. { intros b' Hb' Hr'. apply Hex, Exists_exists. eauto. }
           cbn. rewrite Hb. by rewrite lookup_delete.
      * intros Hall. exfalso. apply (Hall b); [left|done].
    + intros Hl. destruct (IH _ _ _ Hl) as (H1 & H2 & H3 & H4 & H5 & H6 & H7 & H8).
      split_and!; try done.
      * intros x. rewrite H6. split.
        -- intros (b' & -> & Hb' & ? & ?). exists b'. split_and!; [done|by right|done|done].
        -- intros (b' & -> & Hb' & ? & ?). apply elem_of_cons in Hb' as [->|Hb']; [done|eauto].
      * intros (b' & Hb' & Hr'). apply elem_of_cons in Hb' as [->|Hb']; [done|]. apply H7. eauto.
      * intros Hall. apply H8. intros b' Hb'. apply Hall. by right.
Qed.

Lemma reqnext_spec oc s s' acts :
  request_next_range_batch oc s = (s', acts) ->
  sv_chain s' = sv_chain s /\ sv_connected s' = sv_connected s /\ sv_pending s' = sv_pending s /\
  ((acts = [] /\ s' = s /\ (forall r, sv_range s = Some r -> next_batch (oc_pick oc) r = None)) \/
   (exists r p a e, sv_range s = Some r /\ next_batch (oc_pick oc) r = Some (p, (a, e)) /\ oc_sent oc = None /\
     acts = [] /\ s' = fail_range_request s p) \/
   (exists r p a e id, sv_range s = Some r /\ next_batch (oc_pick oc) r = Some (p, (a, e)) /\ oc_sent oc = Some id /\
     acts = [SendRange id p a (e - a)] /\ sv_out s' = <[id := KRange a (e - 1)]> (sv_out s) /\
     sv_range s' = Some (mkRS (rs_start r) (rs_end r) (rs_peers r) true))).
Proof.
  unfold request_next_range_batch. destruct (sv_range s) as [r|] eqn:Hr.
  2:{ intros [= <- <-]. split_and!; try done. left. done. }
  destruct (next_batch (oc_pick oc) r) as [[p [a e]]|] eqn:Hn.
  2:{ intros [= <- <-]. split_and!; try done. left. split_and!; try done. by intros r' [= <-]. }
  destruct (oc_sent oc) as [id|] eqn:Hs; intros [= <- <-]; cbn.
  - split_and!; try done. right; right. exists r, p, a, e, id. done.
  - unfold fail_range_request. rewrite Hr. cbn. split_and!; try done. right; left. exists r, p, a, e. done.
Qed.

Lemma inv_range_ext live live' rg :
  (forall id p a e, live' !! id = Some (p, KRange a e) <-> live !! id = Some (p, KRange a e)) ->
  inv_range live rg -> inv_range live' rg.
Proof.
  intros Hx [H1 H2 H3 H4 H5]. split; [..|done|done].
  - intros id p a e H. apply Hx in H. eauto.
  - intros id id' p p' a e a' e' H H'. apply Hx in H, H'. eauto.
  - intros r Hr Hf. destruct (H3 r Hr Hf) as (id & p & a & e & H). exists id, p, a, e. by apply Hx.
Qed.
Lemma inv_root_ext live live' t pn :
  (forall id p r, live' !! id = Some (p, KRoot r) <-> live !! id = Some (p, KRoot r)) ->
  inv_root live t pn -> inv_root live' t pn.
Proof.
  intros Hx [H1 H2 H3 H4 H5 H6]. split; [|done| |done| |done].
  - intros id p r H. apply Hx in H. eauto.
  - intros id id' p p' r H H'. apply Hx in H, H'. eauto.
  - intros id p r H. apply Hx in H. eauto.
Qed.

(** No range request waits. *)
Definition no_range (live : gmap N (N * Kind)) : Prop := forall id p a e, live !! id <> Some (p, KRange a e).

Lemma no_range_flight live r : inv_range live (Some r) -> rs_flight r = false -> no_range live.
Proof. intros H Hf id p a e Hl. destruct (ir_live _ _ H _ _ _ _ Hl) as (r' & [= <-] & Hf' & _). congruence. Qed.
Lemma no_range_idle live rg :
  no_range live ->
  (forall r, rg = Some r -> rs_flight r = false /\ rs_end r <= two64 - 1 /\
     forall p h, rs_peers r !! p = Some h -> rs_start r <= h) ->
  inv_range live rg.
Proof.
  intros Hn Hr. split.
  - intros id p a e Hl. by apply Hn in Hl.
  - intros id id' p p' a e a' e' Hl. by apply Hn in Hl.
  - intros r -> Hf. destruct (Hr r eq_refl) as [Hf' _]. congruence.
  - intros r p h -> Hp. destruct (Hr r eq_refl) as (_ & _ & H). eauto.
  - intros r ->. by destruct (Hr r eq_refl) as (_ & H & _).
Qed.
Lemma fail_range live s p :
  no_range live -> (forall r, sv_range s = Some r -> rs_end r <= two64 - 1) ->
  inv_range live (sv_range (fail_range_request s p)).
Proof.
  intros Hn He. unfold fail_range_request. destruct (sv_range s) as [r|] eqn:Hr; cbn; rewrite ?Hr.
  - destruct (decide _) as [|Hne]; apply no_range_idle; [done|done|done|].
    intros r' [= <-]. cbn. split_and!; [done|by apply He|]. intros q h Hq.
    by apply map_filter_lookup_Some in Hq as [_ Hq].
  - by apply no_range_idle.
Qed.
Lemma fail_range_other s p :
  sv_chain (fail_range_request s p) = sv_chain s /\ sv_connected (fail_range_request s p) = sv_connected s /\
  sv_pending (fail_range_request s p) = sv_pending s /\ sv_out (fail_range_request s p) = sv_out s.
Proof. unfold fail_range_request. by destruct (sv_range s). Qed.

Lemma request_range live r p a e id pick :
  inv_range live (Some r) -> next_batch pick r = Some (p, (a, e)) -> live !! id = None ->
  inv_range (<[id := (p, KRange a (a + (e - a) - 1))]> live) (Some (mkRS (rs_start r) (rs_end r) (rs_peers r) true)).
Proof.
  intros H Hn Hid. destruct (next_batch_spec _ _ _ _ _ Hn) as (Hf & -> & Hlt & Hle & Hk & H64 & h & Hp & Hh & He & Hmax).
  pose proof (no_range_flight _ _ H Hf) as Hnr.
  assert (forall id' p' a' e', <[id:=(p, KRange (rs_start r) (rs_start r + (e - rs_start r) - 1))]> live !! id' =
    Some (p', KRange a' e') -> id' = id /\ a' = rs_start r /\ e' = e - 1) as Hone.
  { intros id' p' a' e'. destruct (decide (id' = id)) as [->|Hne].
    - rewrite lookup_insert. intros [= <- <- <-]. split_and!; [done|done|lia].
    - rewrite lookup_insert_ne by done. intros Hl. by apply Hnr in Hl. }
  split; cbn.
  - intros id' p' a' e' Hl. apply Hone in Hl as (_ & -> & ->). eexists. split; [done|]. cbn. split_and!; try done; lia.
  - intros id' id'' p' p'' a' e' a'' e'' Hl Hl'. apply Hone in Hl as [-> _], Hl' as [-> _]. done.
  - intros r' _ _. exists id. rewrite lookup_insert. eauto.
  - intros r' q h' [= <-]. cbn. apply (ir_peers _ _ H r). done.
  - intros r' [= <-]. cbn. by apply (ir_end _ _ H).
Qed.

Lemma request_next_inv oc n s s' acts :
  (oc_sent oc = None \/ oc_sent oc = Some (nt_next n)) ->
  inv_ids (nt_live n) (sv_out s) (nt_next n) ->
  inv_range (nt_live n) (sv_range s) ->
  inv_root (nt_live n) (nt_timers n) (sv_pending s) ->
  request_next_range_batch oc s = (s', acts) ->
  inv (take_all n (s', acts)).1.
Proof.
  intros Hoc [Hi1 Hi2] Hr Ho Hq. apply reqnext_spec in Hq as (H1 & H2 & H3 & Hq).
  destruct Hq as [(-> & -> & _)|[(r & p & a & e & Hrg & Hnb & Hs & -> & ->)|
    (r & p & a & e & id & Hrg & Hnb & Hs & -> & Hout & Hrg')]].
  - done.
  - destruct (fail_range_other s p) as (E1 & E2 & E3 & E4). unfold inv. cbn. rewrite E3, E4. split_and!; try done.
    apply fail_range. { rewrite Hrg in Hr. apply (no_range_flight _ _ Hr). exact (proj1 (next_batch_spec _ _ _ _ _ Hnb)). }
    intros r' Hr'. by apply (ir_end _ _ Hr).
  - destruct Hoc as [Hoc|Hoc]; [congruence|]. rewrite Hs in Hoc. injection Hoc as ->.
    assert (nt_live n !! nt_next n = None) as Hfresh.
    { destruct (nt_live n !! nt_next n) eqn:El; [|done]. apply Hi1 in El. lia. }
    pose proof (next_batch_spec _ _ _ _ _ Hnb) as (_ & _ & Hlt & _).
    unfold inv. cbn. rewrite Hout, Hrg', H3. split_and!; [split|..].
    + intros id x. destruct (decide (id = nt_next n)) as [->|Hne]; [intros; lia|].
      rewrite lookup_insert_ne by done. intros Hl%Hi1. lia.
    + intros id p' k. destruct (decide (id = nt_next n)) as [->|Hne].
      * rewrite !lookup_insert. intros [= <- <-]. repeat f_equal. lia.
      * rewrite !lookup_insert_ne by done. apply Hi2.
    + rewrite Hrg in Hr. by eapply request_range.
    + eapply inv_root_ext; [|exact Ho]. intros id p' r'. destruct (decide (id = nt_next n)) as [->|Hne].
      * rewrite lookup_insert, Hfresh. done.
      * by rewrite lookup_insert_ne.
Qed.

(** Blocks handed over leave the network as it is. *)
Lemma fold_deliver l n : fold_left take_action (map Deliver l) n = n.
Proof. induction l; [done|]. cbn. done. Qed.
Lemma take_all_deliver n s l acts : (take_all n (s, map Deliver l ++ acts)).1 = (take_all n (s, acts)).1.
Proof. unfold take_all. cbn. by rewrite fold_left_app, fold_deliver. Qed.
Lemma fold_delivers acts n : (forall x, x ∈ acts -> exists b, x = Deliver b) -> fold_left take_action acts n = n.
Proof.
  induction acts as [|x acts IH] in n |- *; [done|]. intros H. cbn.
  destruct (H x) as [b ->]; [left|]. cbn. apply IH. intros y Hy. apply H. by right.
Qed.

Lemma remove_one_spec r l l' : remove_one r l = Some l' -> NoDup l -> r ∈ l /\ r ∉ l' /\ NoDup l' /\ (forall x, x <> r -> x ∈ l' <-> x ∈ l).
Proof.
  revert l'. induction l as [|x l IH]; intros l'; [done|]. cbn. destruct (decide (x = r)) as [->|Hne].
  - intros [= <-] Hnd. apply NoDup_cons in Hnd as [Hn Hnd]. split_and!; [left|done|done|].
    intros y Hy. rewrite elem_of_cons. naive_solver.
  - destruct (remove_one r l) as [l2|] eqn:Hl; [|done]. intros [= <-] Hnd. apply NoDup_cons in Hnd as [Hn Hnd].
    destruct (IH _ eq_refl Hnd) as (H1 & H2 & H3 & H4). split_and!.
    + by right.
    + rewrite elem_of_cons. naive_solver.
    + apply NoDup_cons. split; [|done]. rewrite H4 by done. done.
    + intros y Hy. rewrite !elem_of_cons, H4 by done. done.
Qed.

Record root_ok (live : gmap N (N * Kind)) (timers : list H256) (pending : gmap H256 Pending) (r : H256) : Prop := {
  ro_live : forall id p, live !! id = Some (p, KRoot r) -> exists pd, pending !! r = Some pd;
  ro_timer : r ∈ timers -> exists pd, pending !! r = Some pd;
  ro_one : forall id id' p p', live !! id = Some (p, KRoot r) -> live !! id' = Some (p', KRoot r) -> id = id';
  ro_apart : forall id p, live !! id = Some (p, KRoot r) -> r ∉ timers;
  ro_attempts : forall pd, pending !! r = Some pd -> 1 <= pd_attempts pd <= 10 }.
Lemma inv_root_all live t pn : NoDup t -> (forall r, root_ok live t pn r) -> inv_root live t pn.
Proof.
  intros Hnd H. split; try done.
  - intros id p r Hl. by eapply (ro_live _ _ _ _ (H r)).
  - intros r Hl. by eapply (ro_timer _ _ _ _ (H r)).
  - intros id id' p p' r. apply (ro_one _ _ _ _ (H r)).
  - intros id p r. apply (ro_apart _ _ _ _ (H r)).
  - intros r pd. apply (ro_attempts _ _ _ _ (H r)).
Qed.
Lemma inv_root_local live t pn r live' t' pn' :
  inv_root live t pn ->
  NoDup t' ->
  (forall id p r', r' <> r -> live' !! id = Some (p, KRoot r') <-> live !! id = Some (p, KRoot r')) ->
  (forall r', r' <> r -> r' ∈ t' <-> r' ∈ t) ->
  (forall r', r' <> r -> pn' !! r' = pn !! r') ->
  root_ok live' t' pn' r ->
  inv_root live' t' pn'.
Proof.
  intros H Hnd Hl Ht Hp Hr. apply inv_root_all; [done|]. intros r'.
  destruct (decide (r' = r)) as [->|Hne]; [done|]. destruct H as [H1 H2 H3 H4 H5 H6]. split.
  - intros id p Hx. rewrite Hp by done. apply Hl in Hx; eauto.
  - intros Hx. rewrite Hp by done. apply Ht in Hx; eauto.
  - intros id id' p p' Hx Hy. apply Hl in Hx, Hy; eauto.
  - intros id p Hx. rewrite Ht by done. apply Hl in Hx; eauto.
  - intros pd Hx. rewrite Hp in Hx by done. eauto.
Qed.
(** A block nothing is under way for. *)
Lemma root_ok_quiet live t pn r :
  (forall id p, live !! id <> Some (p, KRoot r)) -> r ∉ t ->
  (forall pd, pn !! r = Some pd -> 1 <= pd_attempts pd <= 10) -> root_ok live t pn r.
Proof.
  intros Hl Ht Ha. split; try done.
  - intros id p Hx. by apply Hl in Hx.
  - intros id id' p p' Hx. by apply Hl in Hx.
Qed.
(** A block with one request and no retry. *)
Lemma root_ok_request live t pn r id p pd :
  (forall id' p', live !! id' <> Some (p', KRoot r)) -> r ∉ t -> pn !! r = Some pd -> 1 <= pd_attempts pd <= 10 ->
  root_ok (<[id := (p, KRoot r)]> live) t pn r.
Proof.
  intros Hl Ht Hp Ha.
  assert (forall id' p', <[id:=(p, KRoot r)]> live !! id' = Some (p', KRoot r) -> id' = id) as Hone.
  { intros id' p'. destruct (decide (id' = id)) as [->|Hne]; [done|]. rewrite lookup_insert_ne by done.
    intros Hx. by apply Hl in Hx. }
  split; try done.
  - eauto.
  - intros id1 id2 p1 p2 H1 H2. apply Hone in H1 as ->. by apply Hone in H2 as ->.
  - intros pd' Hpd'. rewrite Hp in Hpd'. by simplify_eq.
Qed.

Section Steps.
  Context (root_of : SignedBlock -> H256).

  Lemma inv_fetch oc n s r s' acts ok :
    (oc_sent oc = None \/ oc_sent oc = Some (nt_next n)) ->
    inv_ids (nt_live n) (sv_out s) (nt_next n) ->
    inv_range (nt_live n) (sv_range s) ->
    inv_root (nt_live n) (nt_timers n) (sv_pending s) ->
    (forall id p, nt_live n !! id <> Some (p, KRoot r)) -> r ∉ nt_timers n ->
    fetch_block_from_peer oc s r = (s', acts, ok) ->
    inv (take_all n (s', acts)).1 /\
    (ok = false -> inv (take_all n (set_pending s' (delete r (sv_pending s')), acts)).1).
  Proof using.
    intros Hoc [Hi1 Hi2] Hr Ho Hl Ht Hf. apply fetch_spec in Hf as (H1 & H2 & H3 & H4 & Hf).
    destruct Hf as [(-> & -> & Hout & Hn & Hs & _)|(-> & id & p & Hid & -> & Hin & Hout & Hn & Hs)].
    - unfold inv; cbn. rewrite Hout, H3. split; intros; split_and!; try done.
      + eapply (inv_root_local _ _ _ r); [exact Ho|apply Ho|done|done|done|].
        apply root_ok_quiet; [done|done|]. intros pd Hpd. destruct (sv_pending s !! r) as [pd'|] eqn:E.
        * destruct (Hs _ eq_refl) as [f Hf]. rewrite Hf in Hpd. simplify_eq/=. by eapply (io_attempts _ _ _ Ho).
        * rewrite Hn in Hpd by done. done.
      + eapply (inv_root_local _ _ _ r); [exact Ho|apply Ho|done|done| |].
        * intros r' Hr'. rewrite lookup_delete_ne by done. by apply H4.
        * apply root_ok_quiet; [done|done|]. intros pd. by rewrite lookup_delete.
    - split; [|done]. destruct Hoc as [Hoc|Hoc]; [congruence|]. rewrite Hid in Hoc. injection Hoc as ->.
      assert (nt_live n !! nt_next n = None) as Hfresh.
      { destruct (nt_live n !! nt_next n) eqn:El; [|done]. apply Hi1 in El. lia. }
      unfold inv; cbn. rewrite Hout, H3. split_and!; [split|..].
      + intros id x. destruct (decide (id = nt_next n)) as [->|Hne]; [intros; lia|].
        rewrite lookup_insert_ne by done. intros Hx%Hi1. lia.
      + intros id p' k. destruct (decide (id = nt_next n)) as [->|Hne].
        * rewrite !lookup_insert. by intros [= <- <-].
        * rewrite !lookup_insert_ne by done. apply Hi2.
      + eapply inv_range_ext; [|exact Hr]. intros id p' a e. destruct (decide (id = nt_next n)) as [->|Hne].
        * by rewrite lookup_insert, Hfresh.
        * by rewrite lookup_insert_ne.
      + eapply (inv_root_local _ _ _ r); [exact Ho|apply Ho| |done|done|].
        * intros id p' r' Hr'. destruct (decide (id = nt_next n)) as [->|Hne].
          -- rewrite lookup_insert, Hfresh. split; [|done]. intros [= -> ->]. done.
          -- by rewrite lookup_insert_ne.
        * destruct (sv_pending s !! r) as [pd|] eqn:E.
          -- pose proof (io_attempts _ _ _ Ho _ _ E) as Ha.
             destruct (Hs pd eq_refl) as [[_ Hpd]|[_ Hpd]]; by eapply root_ok_request.
          -- eapply root_ok_request; [done|done|by apply Hn|]. cbn. lia.
  Qed.

  Lemma inv_failure n s r p s' acts :
    inv_ids (nt_live n) (sv_out s) (nt_next n) ->
    inv_range (nt_live n) (sv_range s) ->
    inv_root (nt_live n) (nt_timers n) (sv_pending s) ->
    (forall id p, nt_live n !! id <> Some (p, KRoot r)) -> r ∉ nt_timers n ->
    handle_fetch_failure s r p = (s', acts) ->
    inv (take_all n (s', acts)).1.
  Proof using.
    intros Hi Hr Ho Hl Ht Hf. apply failure_spec in Hf as (H1 & H2 & H3 & H5 & H4 & Hf).
    destruct Hf as [(Hn & -> & Hn')|(pd & Hpd & [(Ha & -> & Hn')|(Ha & -> & Hn')])]; unfold inv; cbn; rewrite H3, H5;
      (split_and!; [done|done|]).
    - eapply (inv_root_local _ _ _ r); [exact Ho|apply Ho|done|done|done|].
      apply root_ok_quiet; [done|done|]. intros pd. by rewrite Hn'.
    - eapply (inv_root_local _ _ _ r); [exact Ho|apply Ho|done|done|done|].
      apply root_ok_quiet; [done|done|]. intros pd'. by rewrite Hn'.
    - eapply (inv_root_local _ _ _ r); [exact Ho| |done| |done|].
      + apply NoDup_app. split_and!; [apply Ho| |apply NoDup_singleton].
        intros x Hx ->%elem_of_list_singleton. done.
      + intros r' Hr'. rewrite elem_of_app, elem_of_list_singleton. naive_solver.
      + split.
        * intros id q Hx. by apply Hl in Hx.
        * intros _. eauto.
        * intros id id' q q' Hx. by apply Hl in Hx.
        * intros id q Hx. by apply Hl in Hx.
        * intros pd'. rewrite Hn'. intros [= <-]. cbn. pose proof (io_attempts _ _ _ Ho _ _ Hpd). lia.
  Qed.

  (** Forgetting an answered request. *)
  Lemma inv_delete n id p k :
    inv n -> nt_live n !! id = Some (p, k) ->
    inv_ids (delete id (nt_live n)) (delete id (sv_out (nt_srv n))) (nt_next n) /\
    sv_out (nt_srv n) !! id = Some k.
  Proof using.
    intros [[H1 H2] _] Hl. split; [|by eapply H2]. split.
    - intros id' x [_ Hx]%lookup_delete_Some. by eapply H1.
    - intros id' q k' [Hne Hx]%lookup_delete_Some. rewrite lookup_delete_ne by done. by eapply H2.
  Qed.
  Lemma inv_delete_root n id p r :
    inv n -> nt_live n !! id = Some (p, KRoot r) ->
    inv_range (delete id (nt_live n)) (sv_range (nt_srv n)) /\
    inv_root (delete id (nt_live n)) (nt_timers n) (sv_pending (nt_srv n)) /\
    (forall id' p', delete id (nt_live n) !! id' <> Some (p', KRoot r)) /\ r ∉ nt_timers n.
  Proof using.
    intros (_ & Hr & Ho) Hl.
    assert (forall id' p', delete id (nt_live n) !! id' <> Some (p', KRoot r)) as Hn.
    { intros id' p' [Hne Hx]%lookup_delete_Some. apply Hne. exact (io_one _ _ _ Ho _ _ _ _ _ Hl Hx). }
    assert (r ∉ nt_timers n) as Ht by exact (io_apart _ _ _ Ho _ _ _ Hl).
    split_and!; try done.
    - eapply inv_range_ext; [|exact Hr]. intros id' q a e. rewrite lookup_delete_Some. split; [naive_solver|].
      intros Hx. split; [|done]. congruence.
    - eapply (inv_root_local _ _ _ r); [exact Ho|apply Ho| |done|done|].
      + intros id' q r' Hr'. rewrite lookup_delete_Some. split; [naive_solver|].
        intros Hx. split; [|done]. congruence.
      + apply root_ok_quiet; [done|done|]. apply (io_attempts _ _ _ Ho).
  Qed.
  Lemma inv_delete_range n id p a e :
    inv n -> nt_live n !! id = Some (p, KRange a e) ->
    no_range (delete id (nt_live n)) /\
    inv_root (delete id (nt_live n)) (nt_timers n) (sv_pending (nt_srv n)) /\
    (exists r, sv_range (nt_srv n) = Some r /\ rs_start r = a /\ a <= e /\ e < rs_end r /\ e < a + 1024 /\ e < two64 - 1 /\
       rs_end r <= two64 - 1).
  Proof using.
    intros (_ & Hr & Ho) Hl. split_and!.
    - intros id' q a' e' [Hne Hx]%lookup_delete_Some. apply Hne. exact (ir_one _ _ Hr _ _ _ _ _ _ _ _ Hl Hx).
    - eapply inv_root_ext; [|exact Ho]. intros id' q r. rewrite lookup_delete_Some. split; [naive_solver|].
      intros Hx. split; [|done]. congruence.
    - destruct (ir_live _ _ Hr _ _ _ _ Hl) as (r & Hrg & _ & ? & ? & ? & ? & ?). exists r. split_and!; try done.
      by apply (ir_end _ _ Hr).
  Qed.

  Lemma oc_cases pick (ok : bool) n :
    oc_sent (mkOc pick (if ok then Some (nt_next n) else None)) = None \/
    oc_sent (mkOc pick (if ok then Some (nt_next n) else None)) = Some (nt_next n).
  Proof using. destruct ok; [by right|by left]. Qed.

  Lemma merge_range live r p h t :
    inv_range live (Some r) -> t <= two64 - 1 -> inv_range live (Some (merge_peer r p h t)).
  Proof using.
    intros [H1 H2 H3 H4 H5] Ht. split.
    - intros id q a e Hl. destruct (H1 _ _ _ _ Hl) as (r' & [= <-] & ? & ? & ? & ? & ? & ?).
      eexists. split; [done|]. cbn. split_and!; try done. lia.
    - done.
    - intros r' [= <-]. cbn. by apply H3.
    - intros r' q h' [= <-]. cbn. intros Hq. by apply map_filter_lookup_Some in Hq as [_ Hq].
    - intros r' [= <-]. cbn. specialize (H5 r eq_refl). lia.
  Qed.

  Lemma some_fst {A B} (x : A * B) a b : Some x = Some (a, b) -> a = x.1.
  Proof using. by intros [= ->]. Qed.

  Lemma step_inv pick ok n ev n' acts :
    inv n -> step root_of pick ok n ev = Some (n', acts) -> inv n'.
  Proof using.
    intros Hinv Hst. pose proof Hinv as (Hi & Hr & Ho).
    pose proof (oc_cases pick ok n) as Hoc.
    unfold step in Hst. set (oc := mkOc pick _) in *. destruct ev as [|p first|p last|r|r|p h oh|id bs|id].
    - apply some_fst in Hst as ->. done.
    - destruct first; apply some_fst in Hst as ->; done.
    - destruct last; apply some_fst in Hst as ->; done.
    - apply some_fst in Hst as ->. unfold handle_fetch_block.
      destruct (sv_pending (nt_srv n) !! r) as [pd|] eqn:Hpd; [done|].
      destruct (fetch_block_from_peer oc (nt_srv n) r) as [[s' a'] ok'] eqn:Hf. cbn [fst].
      refine (proj1 (inv_fetch oc n (nt_srv n) r s' a' ok' Hoc Hi Hr Ho _ _ Hf)).
      + intros id p Hx. destruct (io_live _ _ _ Ho _ _ _ Hx). congruence.
      + intros Hx. destruct (io_timer _ _ _ Ho _ Hx). congruence.
    - destruct (remove_one r (nt_timers n)) as [t|] eqn:Ht; [|done]. apply some_fst in Hst as ->.
      destruct (remove_one_spec _ _ _ Ht (io_nodup _ _ _ Ho)) as (T1 & T2 & T3 & T4).
      assert (inv (mkNet (nt_srv n) (nt_live n) t (nt_next n))) as (Hi' & Hr' & Ho').
      { split_and!; [done|done|]. cbn. eapply (inv_root_local _ _ _ r); [exact Ho|done|done|done|done|].
        split.
        - intros id p Hx. exact (io_live _ _ _ Ho _ _ _ Hx).
        - intros Hx. done.
        - intros id id' p p' Hx Hy. exact (io_one _ _ _ Ho _ _ _ _ _ Hx Hy).
        - intros id p Hx. done.
        - intros pd Hx. exact (io_attempts _ _ _ Ho _ _ Hx). }
      unfold handle_retry_block_fetch. destruct (sv_pending (nt_srv n) !! r) as [pd|] eqn:Hpd; [|done].
      destruct (fetch_block_from_peer oc (nt_srv n) r) as [[s' a'] ok'] eqn:Hf.
      destruct (inv_fetch oc (mkNet (nt_srv n) (nt_live n) t (nt_next n)) (nt_srv n) r s' a' ok') as [F1 F2]; cbn; try done.
      { intros id p Hx. by eapply (io_apart _ _ _ Ho). }
      destruct ok'; [done|]. by apply F2.
    - destruct (two64 <=? h) eqn:H64; [done|]. apply some_fst in Hst as ->. unfold handle_status_response.
      destruct (h <=? oh) eqn:Hle; [done|]. set (s := set_range _ _).
      destruct (request_next_range_batch oc s) as [s' a'] eqn:Hq.
      refine (request_next_inv oc n s s' a' Hoc Hi _ Ho Hq).
      subst s. cbn. destruct (sv_range (nt_srv n)) as [r|] eqn:Hrg.
      + apply merge_range; [done|]. unfold sat_add. lia.
      + apply no_range_idle.
        * intros id q a e Hx. destruct (ir_live _ _ Hr _ _ _ _ Hx) as (? & ? & _). done.
        * intros r [= <-]. cbn. split_and!; [done|unfold sat_add; lia|]. intros q h' Hq'.
          apply lookup_singleton_Some in Hq' as [<- <-]. unfold sat_add. lia.
    - destruct (nt_live n !! id) as [[p k]|] eqn:Hl; [|done]. apply some_fst in Hst as ->.
      destruct (inv_delete _ _ _ _ Hinv Hl) as [Hi' Hout]. unfold handle_blocks. rewrite Hout. destruct k as [r|a e].
      + destruct (inv_delete_root _ _ _ _ Hinv Hl) as (Hr' & Ho' & Hq & Ht).
        unfold handle_blocks_by_root_response. destruct bs as [|b bs].
        * destruct (handle_fetch_failure _ r p) as [s' a'] eqn:Hf.
          refine ((fun H => inv_failure (mkNet (nt_srv n) (delete id (nt_live n)) (nt_timers n) (nt_next n)) _ r p s' a' H _ _ Hq Ht Hf) _); [exact Hr'|exact Ho'|].
          cbn.
          destruct Hi' as [I1 I2]. split; [exact I1|]. intros id' q k' Hx.
          rewrite insert_delete_insert. destruct (decide (id' = id)) as [->|Hne].
          -- by rewrite lookup_delete in Hx.
          -- rewrite lookup_insert_ne by done. apply I2 in Hx. by rewrite lookup_delete_ne in Hx.
        * destruct (root_loop root_of _ r (b :: bs)) as [s' a'] eqn:Hf.
          apply root_loop_spec in Hf as (F1 & F2 & F3 & F4 & F5 & F6 & F7 & F8).
          unfold take_all, inv. cbn [fst snd]. rewrite fold_delivers.
          2:{ intros x Hx. apply F6 in Hx. naive_solver. }
          cbn [set_srv nt_live nt_timers nt_srv nt_next]. rewrite F3, F4. split_and!; [done|done|].
          eapply (inv_root_local _ _ _ r); [exact Ho'|apply Ho'|done|done|done|].
          apply root_ok_quiet; [done|done|]. intros pd Hpd.
          destruct (decide (Exists (fun b => root_of b = r) (b :: bs))) as [Hex|Hex].
          -- apply Exists_exists in Hex. rewrite F7 in Hpd by done. done.
          -- destruct F8 as [-> _]. { intros b' Hb' Hr''. apply Hex, Exists_exists. eauto. }
             by apply (io_attempts _ _ _ Ho' r).
      + destruct (inv_delete_range _ _ _ _ _ Hinv Hl) as (Hnr & Ho' & r & Hrg & Hsa & Hae & He & Hk & H64 & Hend).
        unfold handle_blocks_by_range_response. destruct bs as [|b bs].
        * unfold inv. cbn. set (s1 := set_out (nt_srv n) _) in *.
          destruct (fail_range_other s1 p) as (E1 & E2 & E3 & E4). rewrite E3, E4.
          split_and!; try done. apply fail_range; [done|]. intros r' Hr'. cbn in Hr'. rewrite Hrg in Hr'. by simplify_eq.
        * destruct (sv_chain _).
          2:{ unfold inv. cbn. split_and!; [done| |done]. by apply no_range_idle. }
          cbn [set_out sv_range]. rewrite Hrg.
          destruct ((_ <=? _) || _).
          -- rewrite <- (app_nil_r (map Deliver _)), take_all_deliver.
             unfold inv. cbn. split_and!; [done| |done]. by apply no_range_idle.
          -- destruct (request_next_range_batch oc _) as [s' a'] eqn:Hq. rewrite take_all_deliver.
             refine (request_next_inv oc (mkNet (nt_srv n) (delete id (nt_live n)) (nt_timers n) (nt_next n))
               (set_range (set_out (nt_srv n) (delete id (sv_out (nt_srv n)))) (Some (complete_batch r e)))
               s' a' Hoc Hi' _ Ho' Hq).
             cbn. apply no_range_idle; [done|]. intros r' [= <-]. cbn. split_and!; [done|done|].
             intros q h' Hq'. by apply map_filter_lookup_Some in Hq' as [_ Hq'].
    - destruct (nt_live n !! id) as [[p k]|] eqn:Hl; [|done]. apply some_fst in Hst as ->.
      destruct (inv_delete _ _ _ _ Hinv Hl) as [Hi' Hout]. unfold handle_outbound_failure. rewrite Hout. destruct k as [r|a e].
      + destruct (inv_delete_root _ _ _ _ Hinv Hl) as (Hr' & Ho' & Hq & Ht).
        destruct (handle_fetch_failure _ r p) as [s' a'] eqn:Hf.
        refine (inv_failure (mkNet (nt_srv n) (delete id (nt_live n)) (nt_timers n) (nt_next n)) _ r p s' a' _ _ _ Hq Ht Hf); done.
      + destruct (inv_delete_range _ _ _ _ _ Hinv Hl) as (Hnr & Ho' & r & Hrg & Hsa & Hae & He & Hk & H64 & Hend).
        unfold inv. cbn. set (s1 := set_out (nt_srv n) _) in *.
        destruct (fail_range_other s1 p) as (E1 & E2 & E3 & E4). rewrite E3, E4.
        split_and!; try done. apply fail_range; [done|]. intros r' Hr''. cbn in Hr''. rewrite Hrg in Hr''. by simplify_eq.
  Qed.

  Lemma run_inv n l m : run root_of n l m -> inv n -> inv m.
  Proof using. induction 1; [done|]. intros Hi. apply IHrun. by eapply step_inv. Qed.
  Lemma reached_inv n : reached root_of n -> inv n.
  Proof using. intros [l Hl]. eapply run_inv; [exact Hl|]. apply inv_net0. Qed.
End Steps.
