(** Proofs about the event monitor. *)
From Coq Require Import String.
From Verif Require Import Lib MonitorSpec.
Local Open Scope N_scope.

(** ** The history *)
Lemma drop_old_spec mx rt l : exists d, drop_old mx rt l = drop d l /\
  forall i e, (i < d)%nat -> l !! i = Some e -> rt <= mx - ev_slot e.
Proof.
  induction l as [|e l IH]; cbn.
  - exists 0%nat. split; [done|]. intros i e Hi. lia.
  - destruct (N.leb_spec rt (mx - ev_slot e)) as [H|H].
    + destruct IH as (d & -> & Hd). exists (S d). split; [done|].
      intros [|i] x Hi Hx; cbn in Hx; [by injection Hx as <-|]. apply (Hd i); [lia|done].
    + exists 0%nat. split; [done|]. intros i x Hi. lia.
Qed.

Definition hist_of (h : History) (P : list Ev) : History := fold_left push_event P h.
(** From an empty history on: the newest events, without a gap. *)
Lemma hist_spec rt P : 1 <= rt -> let h := hist_of (mkHistory [] 0 rt) P in
  hi_retain h = rt /\ (forall e, e ∈ P -> ev_slot e <= hi_max h) /\
  (P <> [] -> exists f, f ∈ P /\ hi_max h = ev_slot f) /\
  exists d, hi_events h = drop d P /\
    forall i e, (i < d)%nat -> P !! i = Some e ->
      ev_slot e + rt <= hi_max h \/ HISTORY_MAX_EVENTS <= lenN (drop (S i) P).
Proof.
  intros Hrt. induction P as [|e P IH] using rev_ind.
  - cbn. split_and!; [done| |done|].
    + intros e He. by apply not_elem_of_nil in He.
    + exists 0%nat. split; [done|]. intros i e Hi. lia.
  - cbn zeta in *. unfold hist_of in *. rewrite fold_left_app. cbn [fold_left].
    set (h := fold_left push_event P _) in *. destruct IH as (I1 & I2 & I3 & d & I4 & I5).
    unfold push_event, prune. cbn [hi_events hi_max hi_retain]. rewrite I1, I4.
    set (mx := N.max (hi_max h) (ev_slot e)).
    assert (exists d', drop d P ++ [e] = drop d' (P ++ [e]) /\ (d' <= d)%nat /\ (d' <= length P)%nat) as (d' & Ed' & Hd' & Hl').
    { destruct (decide (d <= length P)%nat).
      - exists d. rewrite drop_app_le by lia. done.
      - exists (length P). rewrite drop_app_le by lia. rewrite !drop_ge by lia. done || (split_and!; [done|lia|lia]). }
    rewrite Ed'. destruct (drop_old_spec mx rt (drop d' (P ++ [e]))) as (d1 & -> & Hd1). rewrite drop_drop.
    set (k := N.to_nat _).
    split_and!; [done| | |].
    + intros x Hx. apply elem_of_app in Hx as [Hx|Hx]; [specialize (I2 _ Hx); lia|].
      apply elem_of_list_singleton in Hx as ->. lia.
    + intros _. destruct (decide (ev_slot e < hi_max h)) as [Hlt|Hge].
      * destruct I3 as (f & Hf & E). { intros ->. cbn in Hlt. lia. }
        exists f. split; [apply elem_of_app; by left|]. unfold mx. lia.
      * exists e. split; [apply elem_of_app; right; left|]. unfold mx. lia.
    + exists (d' + d1 + k)%nat. split; [rewrite !drop_drop; f_equal; lia|]. intros i x Hi Hx.
      destruct (decide (i < d')%nat) as [H1|H1].
      { rewrite lookup_app_l in Hx by lia. destruct (I5 i x ltac:(lia) Hx) as [G|G]; [left; unfold mx; lia|right].
        rewrite drop_app_le by lia. rewrite lenN_app. lia. }
      destruct (decide (i < d' + d1)%nat) as [H2|H2].
      { left. specialize (Hd1 (i - d')%nat x ltac:(lia)). rewrite lookup_drop in Hd1.
        replace (d' + (i - d'))%nat with i in Hd1 by lia. specialize (Hd1 Hx). lia. }
      right. unfold k in Hi. unfold lenN in *. rewrite !drop_length in *. lia.
Qed.

(** ** The snapshot *)
Notation series e := (ev_node e, ev_topic e).
Definition same (e f : Ev) : Prop := ev_node f = ev_node e /\ ev_topic f = ev_topic e.
Global Instance same_dec e f : Decision (same e f).
Proof. unfold same. apply _. Defined.
Lemma newest_spec l : forall kept i e, l !! i = Some e ->
  e ∈ newest kept l \/
  SNAPSHOT_MAX_EVENTS_PER_SERIES <= default 0 (kept !! series e) + lenN (filter (same e) (take i l)).
Proof.
  induction l as [|x l IH]; intros kept i e Hi; [done|].
  cbn [newest]. set (count := default 0 (kept !! series x)).
  destruct i as [|i]; cbn in Hi.
  - injection Hi as ->. cbn. fold count. destruct (N.leb_spec SNAPSHOT_MAX_EVENTS_PER_SERIES count); [right; lia|left; left].
  - destruct (N.leb_spec SNAPSHOT_MAX_EVENTS_PER_SERIES count) as [Hge|Hlt].
    + destruct (IH kept i e Hi) as [H|H]; [by left|right]. cbn [take]. rewrite filter_cons.
      destruct (decide _); [rewrite lenN_cons|]; lia.
    + destruct (IH (<[series x := count + 1]> kept) i e Hi) as [H|H]; [left; by right|right].
      cbn [take]. rewrite filter_cons. destruct (decide (same e x)) as [[E1 E2]|Hne].
      * rewrite <- E1, <- E2 in H |- *. rewrite lookup_insert in H. cbn in H. rewrite lenN_cons. fold count. lia.
      * rewrite lookup_insert_ne in H by (intros [= E1 E2]; by apply Hne). lia.
Qed.
Lemma newest_sub l : forall kept e, e ∈ newest kept l -> e ∈ l.
Proof.
  induction l as [|x l IH]; intros kept e H; cbn in H; [done|].
  destruct (_ <=? _); [right; by eapply IH|]. apply elem_of_cons in H as [->|H]; [left|right; by eapply IH].
Qed.
Lemma rev_reverse {A} (l : list A) : rev l = reverse l.
Proof. apply rev_alt. Qed.
Lemma snapshot_spec h i e : hi_events h !! i = Some e ->
  e ∈ snapshot h \/ SNAPSHOT_MAX_EVENTS_PER_SERIES <= lenN (filter (same e) (drop (S i) (hi_events h))).
Proof.
  intros Hi. pose proof (lookup_lt_Some _ _ _ Hi) as Hlt. set (L := hi_events h) in *.
  assert (rev L !! (length L - 1 - i)%nat = Some e) as Hr.
  { rewrite rev_reverse, reverse_lookup by lia. by replace (length L - S (length L - 1 - i))%nat with i by lia. }
  destruct (newest_spec _ ∅ _ _ Hr) as [H|H].
  - left. unfold snapshot. fold L. apply elem_of_list_In. rewrite <- in_rev. by apply elem_of_list_In.
  - right. rewrite lookup_empty in H. cbn [default] in H. rewrite N.add_0_l in H.
    assert (take (length L - 1 - i) (rev L) ≡ₚ drop (S i) L) as Hp.
    { rewrite <- (take_drop (S i) L) at 2. rewrite rev_app_distr. rewrite take_app_alt.
      - rewrite rev_reverse. apply reverse_Permutation.
      - rewrite rev_reverse, reverse_length, drop_length. lia. }
    unfold lenN in *. by rewrite Hp in H.
Qed.
Lemma snapshot_sub h e : e ∈ snapshot h -> e ∈ hi_events h.
Proof.
  unfold snapshot. intros H. apply elem_of_list_In in H. rewrite <- in_rev in H. apply elem_of_list_In in H.
  apply newest_sub in H. apply elem_of_list_In in H. rewrite <- in_rev in H. by apply elem_of_list_In.
Qed.

(** ** Runs *)
Lemma mrun_hist m l m' P : mrun m l m' P -> AReset ∉ l -> mo_hist m' = hist_of (mo_hist m) P.
Proof.
  induction 1 as [|l m1 P a m2 _ IH He]; intros Hr; [done|].
  rewrite elem_of_app, elem_of_list_singleton in Hr.
  unfold hist_of. rewrite fold_left_app. fold (hist_of (mo_hist m) P). rewrite <- IH by tauto.
  destruct a; cbn in He |- *.
  - destruct (default _ _); [|done|done]. destruct (normalize _ _ _ _) as [[e|]| |]; simplify_eq; done.
  - destruct (mo_coll m1 !! node) as [[| |]|]; simplify_eq; done.
  - destruct (mo_coll m1 !! node) as [[| |]|]; simplify_eq; done.
  - destruct (mo_ref m1); [|done..]. destruct (_ && _); simplify_eq; done.
  - tauto.
  - destruct (mo_ref m1); simplify_eq; done.
  - destruct (mo_ref m1); simplify_eq; done.
Qed.
Lemma mrun_app m l1 m1 P1 l2 m2 P2 : mrun m l1 m1 P1 -> mrun m1 l2 m2 P2 -> mrun m (l1 ++ l2) m2 (P1 ++ P2).
Proof.
  intros H1 H2. induction H2 as [|l m3 P a m4 _ IH He]; [by rewrite !app_nil_r|]. rewrite !app_assoc. by econstructor.
Qed.
Lemma mexec_sent m a m' : mexec m a = Some m' ->
  (mo_sent m' = mo_sent m) \/
  (exists c e, a = ASend c /\ mo_coll m !! c = Some (CPushed e) /\ mo_sent m' = mo_sent m ++ [MChain e]) \/
  (exists t, a = AAnnounce /\ mo_ref m = RReset t /\ mo_ref m' = RAnnounced t /\ mo_sent m' = mo_sent m ++ [MGeometry t]).
Proof.
  intros He. destruct a; cbn in He.
  - destruct (default _ _); [|done|done]. destruct (normalize _ _ _ _) as [[e|]| |]; simplify_eq; by left.
  - destruct (mo_coll m !! node) as [[| |]|]; simplify_eq; by left.
  - destruct (mo_coll m !! node) as [[| |]|] eqn:E; simplify_eq. right. left. eauto.
  - destruct (mo_ref m); [|done..]. destruct (_ && _); simplify_eq; by left.
  - destruct (mo_ref m); simplify_eq; by left.
  - destruct (mo_ref m) eqn:E; simplify_eq. right. right. eauto.
  - destruct (mo_ref m); simplify_eq; by left.
Qed.
Lemma mrun_sent m l m' P : mrun m l m' P -> exists S, mo_sent m' = mo_sent m ++ S.
Proof.
  induction 1 as [|l m1 P a m2 _ [S IH] He]; [exists []; by rewrite app_nil_r|].
  destruct (mexec_sent _ _ _ He) as [->|[(c & e & _ & _ & ->)|(t & _ & _ & _ & ->)]]; rewrite IH.
  - by exists S.
  - eexists. by rewrite <- app_assoc.
  - eexists. by rewrite <- app_assoc.
Qed.
(** What is sent was put into the history on the way or before. *)
Lemma mexec_coll m a m' c x : mexec m a = Some m' -> mo_coll m' !! c = Some x ->
  mo_coll m !! c = Some x \/
  (exists e f now, x = CStamped e /\ normalize c f now (mo_timing m) = Ok (Some e)) \/
  (exists e, a = APush c /\ x = CPushed e /\ mo_coll m !! c = Some (CStamped e)) \/ x = CIdle.
Proof.
  intros He Hx. destruct a; cbn in He.
  - destruct (default CIdle (mo_coll m !! node)) eqn:Ed; [|done|done].
    destruct (normalize _ _ _ _) as [[e|]| |] eqn:En; simplify_eq; [|by left].
    cbn in Hx. destruct (decide (c = node)) as [->|]; [|rewrite lookup_insert_ne in Hx by done; by left].
    rewrite lookup_insert in Hx. injection Hx as <-. right. left. eauto.
  - destruct (mo_coll m !! node) as [[|e|]|] eqn:E; simplify_eq. cbn in Hx.
    destruct (decide (c = node)) as [->|]; [|rewrite lookup_insert_ne in Hx by done; by left].
    rewrite lookup_insert in Hx. injection Hx as <-. right. right. left. eauto.
  - destruct (mo_coll m !! node) as [[| |e]|] eqn:E; simplify_eq. cbn in Hx.
    destruct (decide (c = node)) as [->|]; [|rewrite lookup_insert_ne in Hx by done; by left].
    rewrite lookup_insert in Hx. injection Hx as <-. by right; right; right.
  - destruct (mo_ref m); [|done..]. destruct (_ && _); simplify_eq; by left.
  - destruct (mo_ref m); simplify_eq; by left.
  - destruct (mo_ref m); simplify_eq; by left.
  - destruct (mo_ref m); simplify_eq; by left.
Qed.
Lemma mrun_pushed m l m' P : mrun m l m' P ->
  (forall c e, mo_coll m' !! c = Some (CPushed e) -> in_flight m e \/ e ∈ P) /\
  (forall k e, (length (mo_sent m) <= k)%nat -> mo_sent m' !! k = Some (MChain e) -> in_flight m e \/ e ∈ P).
Proof.
  induction 1 as [|l m1 P a m2 Hr [IH1 IH2] He].
  { split; [intros c e H; left; by exists c|]. intros k e Hk H. apply lookup_lt_Some in H. lia. }
  assert (Hin : forall e, in_flight m e \/ e ∈ P -> in_flight m e \/ e ∈ P ++ pushed_by m1 a).
  { intros e [H|H]; [by left|right; apply elem_of_app; by left]. }
  split.
  - intros c e Hc. destruct (mexec_coll _ _ _ _ _ He Hc) as [H|[(? & ? & ? & [=] & _)|[(e' & -> & [= <-] & H)|[=]]]].
    + apply Hin. by eapply IH1.
    + right. apply elem_of_app. right. cbn. rewrite H. left.
  - intros k e Hk Hs. apply Hin.
    destruct (mexec_sent _ _ _ He) as [Es|[(c & e' & _ & Hc & Es)|(t & _ & _ & _ & Es)]]; rewrite Es in Hs.
    + by eapply IH2.
    + apply lookup_app_Some in Hs as [Hs|[_ Hs]]; [by eapply IH2|].
      destruct (k - length (mo_sent m1))%nat; cbn in Hs; [|done]. injection Hs as <-. by eapply IH1.
    + apply lookup_app_Some in Hs as [Hs|[_ Hs]]; [by eapply IH2|].
      destruct (k - length (mo_sent m1))%nat; cbn in Hs; done.
Qed.

Lemma mexec_retain m a m' : mexec m a = Some m' -> hi_retain (mo_hist m') = hi_retain (mo_hist m).
Proof.
  intros He. destruct a; cbn in He.
  - destruct (default _ _); [|done|done]. destruct (normalize _ _ _ _) as [[e|]| |]; simplify_eq; done.
  - destruct (mo_coll m !! node) as [[| |]|]; simplify_eq; done.
  - destruct (mo_coll m !! node) as [[| |]|]; simplify_eq; done.
  - destruct (mo_ref m); [|done..]. destruct (_ && _); simplify_eq; done.
  - destruct (mo_ref m); simplify_eq; done.
  - destruct (mo_ref m); simplify_eq; done.
  - destruct (mo_ref m); simplify_eq; done.
Qed.
Lemma fresh_hist g hs l m P : mrun (mon_start g hs) l m P -> (l = [] \/ exists l', l = l' ++ [AReset]) ->
  mo_hist m = mkHistory [] 0 (N.max hs 1).
Proof.
  intros Hr Hl.
  assert (forall l m P, mrun (mon_start g hs) l m P -> hi_retain (mo_hist m) = N.max hs 1) as Hret.
  { induction 1 as [|? ? ? ? ? _ IH He]; [done|]. by rewrite (mexec_retain _ _ _ He). }
  destruct Hr as [|l m1 P a m2 Hr He]; [done|].
  destruct Hl as [Hl|[l' Hl]]; [by destruct l|]. apply app_inj_tail in Hl as [-> ->].
  cbn in He. destruct (mo_ref m1); simplify_eq. cbn. unfold reset. by rewrite (Hret _ _ _ Hr).
Qed.
Lemma backfill_pf retain mr l1 m1 P1 l2 m2 P2 l3 m P3 k e :
  mo_hist mr = mkHistory [] 0 retain -> 1 <= retain ->
  mrun mr l1 m1 P1 -> mrun m1 l2 m2 P2 -> mrun m2 l3 m P3 -> AReset ∉ l1 ++ l2 ->
  (length (mo_sent mr) <= k)%nat -> mo_sent m !! k = Some (MChain e) ->
  MChain e ∈ live m1 m \/ e ∈ snapshot (mo_hist m2) \/ in_flight mr e \/ outdated retain (P1 ++ P2) e.
Proof.
  intros Hh Hrt R1 R2 R3 Hnr Hk Hs.
  destruct (decide (length (mo_sent m1) <= k)%nat) as [Hl|Hl].
  { left. unfold live. apply elem_of_list_lookup. exists (k - length (mo_sent m1))%nat. rewrite lookup_drop.
    by replace (length (mo_sent m1) + (k - length (mo_sent m1)))%nat with k by lia. }
  right. destruct (mrun_sent _ _ _ _ (mrun_app _ _ _ _ _ _ _ R2 R3)) as [S0 ES]. rewrite ES, lookup_app_l in Hs by lia.
  destruct (mrun_pushed _ _ _ _ R1) as [_ HP]. destruct (HP k e Hk Hs) as [H|H]; [by right; left|].
  pose proof (mrun_hist _ _ _ _ (mrun_app _ _ _ _ _ _ _ R1 R2) Hnr) as EH. rewrite Hh in EH.
  destruct (hist_spec retain (P1 ++ P2) Hrt) as (_ & _ & Hm & d & Hd & Hold). rewrite <- EH in *.
  apply elem_of_list_lookup in H as [i Hi]. assert ((P1 ++ P2) !! i = Some e) as Hi' by (by apply lookup_app_l_Some).
  destruct (decide (i < d)%nat) as [Hid|Hid].
  - right. right. exists i. split; [done|]. destruct (Hold i e Hid Hi') as [G|G]; [left|by right; left].
    destruct Hm as (f & Hf & Ef). { intros E. rewrite E in Hi'. done. } exists f. split; [done|]. lia.
  - assert (hi_events (mo_hist m2) !! (i - d)%nat = Some e) as Hev.
    { rewrite Hd, lookup_drop. by replace (d + (i - d))%nat with i by lia. }
    destruct (snapshot_spec _ _ _ Hev) as [G|G]; [by left|right; right].
    exists i. split; [done|]. right. right. rewrite Hd, drop_drop in G. replace (d + S (i - d))%nat with (S i) in G by lia. done.
Qed.

Lemma backfill_run g hs l0 mr P0 l1 m1 P1 l2 m2 P2 l3 m P3 k e :
  mrun (mon_start g hs) l0 mr P0 -> (l0 = [] \/ exists l', l0 = l' ++ [AReset]) ->
  mrun mr l1 m1 P1 -> mrun m1 l2 m2 P2 -> AReset ∉ l1 ++ l2 -> mrun m2 l3 m P3 ->
  (length (mo_sent mr) <= k)%nat -> mo_sent m !! k = Some (MChain e) ->
  MChain e ∈ live m1 m \/ e ∈ snapshot (mo_hist m2) \/ in_flight mr e \/ outdated (N.max hs 1) (P1 ++ P2) e.
Proof.
  intros R0 Hl R1 R2 Hn R3 Hk Hs. eapply backfill_pf; [exact (fresh_hist _ _ _ _ _ R0 Hl)|lia|exact R1|exact R2|exact R3|done|done|done].
Qed.

(** ** Announcements *)
Definition announced (S : list HubMessage) (g t : Timing) : Prop := t = g \/ MGeometry t ∈ S.
Lemma announced_pf g hs l m P k e :
  mrun (mon_start g hs) l m P -> mo_sent m !! k = Some (MChain e) ->
  ev_geo e = g \/ exists j, (j < k)%nat /\ mo_sent m !! j = Some (MGeometry (ev_geo e)).
Proof.
  intros Hr.
  assert (announced (mo_sent m) g (mo_timing m) /\ (forall t, mo_ref m = RAnnounced t -> announced (mo_sent m) g t) /\
    (forall c e, mo_coll m !! c = Some (CStamped e) \/ mo_coll m !! c = Some (CPushed e) -> announced (mo_sent m) g (ev_geo e)) /\
    (forall k e, mo_sent m !! k = Some (MChain e) -> announced (take k (mo_sent m)) g (ev_geo e))) as (_ & _ & _ & H).
  { induction Hr as [|l m1 P a m2 _ (I1 & I2 & I3 & I4) He].
    - cbn. split_and!; [by left|done| |].
      + intros c x [H|H]; by rewrite lookup_empty in H.
      + intros j x H. done.
    - assert (Hmono : forall t, announced (mo_sent m1) g t -> announced (mo_sent m2) g t).
      { intros t [->|H]; [by left|right].
        destruct (mexec_sent _ _ _ He) as [->|[(c & e' & _ & _ & ->)|(t' & _ & _ & _ & ->)]]; [done| |];
          apply elem_of_app; by left. }
      split_and!.
      + destruct a; cbn in He.
        * destruct (default _ _); [|done|done]. destruct (normalize _ _ _ _) as [[x|]| |]; simplify_eq; done.
        * destruct (mo_coll m1 !! node) as [[| |]|]; simplify_eq; done.
        * destruct (mo_coll m1 !! node) as [[| |]|]; simplify_eq; by apply Hmono.
        * destruct (mo_ref m1); [|done..]. destruct (_ && _); simplify_eq; done.
        * destruct (mo_ref m1); simplify_eq; done.
        * destruct (mo_ref m1); simplify_eq; by apply Hmono.
        * destruct (mo_ref m1) eqn:E; simplify_eq. cbn. by apply I2.
      + intros t Ht. destruct a; cbn in He.
        * destruct (default _ _); [|done|done]. destruct (normalize _ _ _ _) as [[x|]| |]; simplify_eq; by apply I2.
        * destruct (mo_coll m1 !! node) as [[| |]|]; simplify_eq; by apply I2.
        * destruct (mo_coll m1 !! node) as [[| |]|]; simplify_eq; by apply Hmono, I2.
        * destruct (mo_ref m1); [|done..]. destruct (_ && _); simplify_eq; done.
        * destruct (mo_ref m1); simplify_eq; done.
        * destruct (mo_ref m1); simplify_eq. cbn in Ht |- *. injection Ht as <-. right. apply elem_of_app. right. left.
        * destruct (mo_ref m1); simplify_eq; done.
      + intros c x Hx.
        assert (forall y, mo_coll m2 !! c = Some y -> y = CStamped x \/ y = CPushed x -> announced (mo_sent m2) g (ev_geo x)) as G.
        { intros y Hy Hxy. apply Hmono. destruct (mexec_coll _ _ _ _ _ He Hy) as [H|[(e' & f & now & -> & Hn)|[(e' & _ & -> & H)| ->]]].
          - apply (I3 c). destruct Hxy as [->| ->]; tauto.
          - destruct Hxy as [[= ->]|[=]]. destruct f as [[[topic slot] body]|]; [|done]. cbn in Hn.
            destruct (slot_at _ _) as [s| |]; [|done|done]. cbn [rbind] in Hn. destruct (_ <? _); [done|].
            destruct (offset_ms _ _ _) as [o| |]; [|done|done]. cbn [rbind] in Hn. injection Hn as <-. done.
          - destruct Hxy as [[=]|[= ->]]. apply (I3 c). by left.
          - destruct Hxy; done. }
        destruct Hx as [Hx|Hx]; eapply G; eauto.
      + intros j x Hj.
        destruct (mexec_sent _ _ _ He) as [Es|[(c & e' & _ & Hc & Es)|(t & _ & _ & _ & Es)]]; rewrite Es in Hj |- *.
        * by apply I4.
        * apply lookup_app_Some in Hj as [Hj|[Hge Hj]].
          -- rewrite take_app_le by (apply lookup_lt_Some in Hj; lia). by apply I4.
          -- destruct (j - length (mo_sent m1))%nat eqn:Ej; cbn in Hj; [|done]. injection Hj as <-.
             replace j with (length (mo_sent m1)) by lia. rewrite take_app. apply (I3 c). by right.
        * apply lookup_app_Some in Hj as [Hj|[Hge Hj]].
          -- rewrite take_app_le by (apply lookup_lt_Some in Hj; lia). by apply I4.
          -- destruct (j - length (mo_sent m1))%nat eqn:Ej; cbn in Hj; done. }
  intros Hk. destruct (H _ _ Hk) as [G|G]; [by left|right]. apply elem_of_list_lookup in G as [j Hj].
  exists j. apply lookup_take_Some in Hj as [Hj Hlt]. done.
Qed.

(** A tab that read the geometry at [mM] and subscribed at [mS]. *)
Lemma normalize_geo c f now t e : normalize c f now t = Ok (Some e) -> ev_geo e = t.
Proof.
  destruct f as [[[topic slot] body]|]; [|done]. cbn. intros Hn.
  destruct (slot_at _ _) as [s| |]; [|done|done]. cbn [rbind] in Hn. destruct (_ <? _); [done|].
  destruct (offset_ms _ _ _) as [o| |]; [|done|done]. cbn [rbind] in Hn. by injection Hn as <-.
Qed.
(** Since [mM], geometries are those of [mM] and those announced since. *)
Lemma told_run mM l m P : (forall t, mo_ref mM <> RAnnounced t) -> mrun mM l m P ->
  let S := drop (length (mo_sent mM)) (mo_sent m) in
  announced S (mo_timing mM) (mo_timing m) /\
  (forall t, mo_ref m = RAnnounced t -> announced S (mo_timing mM) t) /\
  (forall e, busy m e -> busy mM e \/ announced S (mo_timing mM) (ev_geo e)) /\
  (forall k e, S !! k = Some (MChain e) -> busy mM e \/ announced (take k S) (mo_timing mM) (ev_geo e)) /\
  (AAnnounce ∉ l -> forall t, MGeometry t ∉ S).
Proof.
  intros Hm Hr. cbn zeta. induction Hr as [|l m1 P a m2 Hr (I1 & I2 & I3 & I4 & I5) He].
  { rewrite drop_all. split_and!; [by left|intros t H; by destruct (Hm t)|intros e H; by left|intros k e H; done|intros _ t; apply not_elem_of_nil]. }
  destruct (mrun_sent _ _ _ _ Hr) as [S1 ES1]. rewrite ES1 in *. rewrite drop_app in *.
  assert (exists S2, mo_sent m2 = mo_sent mM ++ S1 ++ S2 /\
    (S2 = [] \/ (exists c e, a = ASend c /\ mo_coll m1 !! c = Some (CPushed e) /\ S2 = [MChain e]) \/
     (exists t, a = AAnnounce /\ mo_ref m2 = RAnnounced t /\ S2 = [MGeometry t]))) as (S2 & ES2 & HS2).
  { destruct (mexec_sent _ _ _ He) as [->|[(c & e' & H1 & H2 & ->)|(t' & H1 & _ & H2 & ->)]].
    - exists []. rewrite app_nil_r. split; [done|by left].
    - exists [MChain e']. rewrite ES1, <- app_assoc. split; [done|]. right. left. eauto.
    - exists [MGeometry t']. rewrite ES1, <- app_assoc. split; [done|]. right. right. eauto. }
  rewrite ES2, drop_app.
  assert (Hmono : forall t, announced S1 (mo_timing mM) t -> announced (S1 ++ S2) (mo_timing mM) t).
  { intros t [->|H]; [by left|right]. apply elem_of_app. by left. }
  split_and!.
  - destruct a; cbn in He.
    + destruct (default _ _); [|done|done]. destruct (normalize _ _ _ _) as [[x|]| |]; simplify_eq; by apply Hmono.
    + destruct (mo_coll m1 !! node) as [[| |]|]; simplify_eq; by apply Hmono.
    + destruct (mo_coll m1 !! node) as [[| |]|]; simplify_eq; by apply Hmono.
    + destruct (mo_ref m1); [|done..]. destruct (_ && _); simplify_eq; by apply Hmono.
    + destruct (mo_ref m1); simplify_eq; by apply Hmono.
    + destruct (mo_ref m1); simplify_eq; by apply Hmono.
    + destruct (mo_ref m1) eqn:E; simplify_eq. cbn. by apply Hmono, I2.
  - intros t Ht. destruct a; cbn in He.
    + destruct (default _ _); [|done|done]. destruct (normalize _ _ _ _) as [[x|]| |]; simplify_eq; by apply Hmono, I2.
    + destruct (mo_coll m1 !! node) as [[| |]|]; simplify_eq; by apply Hmono, I2.
    + destruct (mo_coll m1 !! node) as [[| |]|]; simplify_eq; by apply Hmono, I2.
    + destruct (mo_ref m1); [|done..]. destruct (_ && _); simplify_eq; done.
    + destruct (mo_ref m1); simplify_eq; done.
    + destruct HS2 as [->|[(c & e & [=] & _)|(t' & _ & Ht' & ->)]].
      * destruct (mo_ref m1); simplify_eq. cbn in ES2. rewrite ES1, app_nil_r, <- app_assoc in ES2.
        apply app_inv_head in ES2. apply (f_equal length) in ES2. rewrite app_length in ES2. cbn in ES2. lia.
      * rewrite Ht in Ht'. injection Ht' as <-. right. apply elem_of_app. right. left.
    + destruct (mo_ref m1); simplify_eq; done.
  - intros x [c Hx].
    assert (forall y, mo_coll m2 !! c = Some y -> y = CStamped x \/ y = CPushed x -> busy mM x \/ announced (S1 ++ S2) (mo_timing mM) (ev_geo x)) as G.
    { intros y Hy Hxy.
      assert (busy mM x \/ announced S1 (mo_timing mM) (ev_geo x)) as [H|H]; [|by left|right; by apply Hmono].
      destruct (mexec_coll _ _ _ _ _ He Hy) as [H|[(e' & f & now & -> & Hn)|[(e' & _ & -> & H)| ->]]].
      - apply I3. exists c. destruct Hxy as [->| ->]; tauto.
      - destruct Hxy as [[= ->]|[=]]. right. by rewrite (normalize_geo _ _ _ _ _ Hn).
      - destruct Hxy as [[=]|[= ->]]. apply I3. exists c. by left.
      - destruct Hxy; done. }
    destruct Hx as [Hx|Hx]; eapply G; eauto.
  - intros j x Hj. apply lookup_app_Some in Hj as [Hj|[Hge Hj]].
    + rewrite take_app_le by (apply lookup_lt_Some in Hj; lia). by apply I4.
    + destruct HS2 as [->|[(c & e & _ & Hc & ->)|(t' & _ & _ & ->)]]; [done| |].
      * destruct (j - length S1)%nat eqn:Ej; cbn in Hj; [|done]. injection Hj as <-.
        replace j with (length S1) by lia. rewrite take_app. apply I3. exists c. by right.
      * destruct (j - length S1)%nat eqn:Ej; cbn in Hj; done.
  - intros Hn t. rewrite elem_of_app, elem_of_list_singleton in Hn. rewrite elem_of_app.
    intros [H|H]; [by apply (I5 ltac:(tauto) t)|].
    destruct HS2 as [->|[(c & e & _ & _ & ->)|(t' & -> & _)]]; [by apply not_elem_of_nil in H| |tauto].
    by apply elem_of_list_singleton in H.
Qed.
Lemma told_pf mM l1 mS P1 l2 m P2 k e :
  (forall t, mo_ref mM <> RAnnounced t) -> mrun mM l1 mS P1 -> AAnnounce ∉ l1 -> mrun mS l2 m P2 ->
  live mS m !! k = Some (MChain e) ->
  ev_geo e = mo_timing mM \/ (exists j, (j < k)%nat /\ live mS m !! j = Some (MGeometry (ev_geo e))) \/ busy mM e.
Proof.
  intros Hm R1 Hn R2 Hk.
  destruct (told_run _ _ _ _ Hm R1) as (_ & _ & _ & _ & Hno). specialize (Hno Hn).
  destruct (told_run _ _ _ _ Hm (mrun_app _ _ _ _ _ _ _ R1 R2)) as (_ & _ & _ & H & _).
  destruct (mrun_sent _ _ _ _ R1) as [S1 E1]. destruct (mrun_sent _ _ _ _ R2) as [S2 E2].
  unfold live in *. rewrite E2, drop_app in Hk |- *. rewrite E2, E1, <- app_assoc, drop_app in H. rewrite E1, drop_app in Hno.
  assert ((S1 ++ S2) !! (length S1 + k)%nat = Some (MChain e)) as Hk'.
  { rewrite lookup_app_r by lia. by replace (length S1 + k - length S1)%nat with k by lia. }
  destruct (H _ _ Hk') as [G|[G|G]]; [by right; right|by left|right; left].
  rewrite take_add_app in G by done. apply elem_of_app in G as [G|G]; [by apply Hno in G|].
  apply elem_of_list_lookup in G as [j Hj]. exists j. by apply lookup_take_Some in Hj as [Hj Hlt].
Qed.

(** ** Stamps *)
Lemma i64_ok z : (- 2 ^ 63 <= z < 2 ^ 63)%Z -> i64 z = Ok z.
Proof. intros H. unfold i64. by rewrite (proj2 (Z.leb_le _ _)), (proj2 (Z.ltb_lt _ _)) by lia. Qed.
Lemma as_i64_ok n : n < 2 ^ 63 -> as_i64 n = Z.of_N n.
Proof. intros H. unfold as_i64. by rewrite (proj2 (N.ltb_lt _ _)). Qed.
Lemma timing_valid_spec t : timing_valid t = true ->
  1 <= tm_ms t <= 3600000 /\ tm_genesis t <= 4102444800.
Proof.
  unfold timing_valid, MAX_MS_PER_SLOT, MAX_GENESIS_TIME. rewrite !andb_true_iff, !negb_true_iff, orb_false_iff.
  intros [[[H1 H2] _] H3]. apply N.eqb_neq in H1. apply N.ltb_ge in H2. apply N.ltb_ge in H3. lia.
Qed.
Lemma stamp_pf c topic slot body arrival t :
  timing_valid t = true -> slot < two64 -> (0 <= arrival < 2 ^ 63 - 28800000)%Z ->
  let start (s : N) := (Z.of_N (tm_genesis t) * 1000 + Z.of_N s * Z.of_N (tm_ms t))%Z in
  exists r, normalize c (Some (topic, slot, body)) arrival t = Ok r /\
    (r <> None <-> (start slot <= Z.max arrival (start 0%N) + 8 * Z.of_N (tm_ms t))%Z) /\
    forall e, r = Some e ->
      ev_node e = c /\ ev_topic e = topic /\ ev_slot e = slot /\ ev_body e = body /\ ev_arrival e = arrival /\
      ev_offset e = (arrival - start slot)%Z.
Proof.
  intros Hv Hs Ha start. apply timing_valid_spec in Hv as [Hms Hg].
  assert (as_i64 (tm_genesis t) = Z.of_N (tm_genesis t)) as Eg by (apply as_i64_ok; lia).
  assert (as_i64 (tm_ms t) = Z.of_N (tm_ms t)) as Em by (apply as_i64_ok; lia).
  assert (exists s, slot_at t arrival = Ok s /\ s <= 2 ^ 63 - 28800000 /\
    (start s <= Z.max arrival (start 0%N) < start (s + 1)%N)%Z) as (s & Es & Hsb & Hlo & Hhi).
  { unfold slot_at. rewrite Eg, i64_ok by lia. cbn [rbind].
    assert (sat_sub arrival (Z.of_N (tm_genesis t) * 1000) = (arrival - Z.of_N (tm_genesis t) * 1000)%Z) as -> by (unfold sat_sub; lia).
    set (d := (arrival - Z.of_N (tm_genesis t) * 1000)%Z). destruct (Z.leb_spec d 0) as [Hd|Hd].
    - exists 0. split; [done|]. split; [lia|]. unfold start, d in *. lia.
    - rewrite (N.max_l (tm_ms t) 1) by lia. eexists. split; [reflexivity|].
      pose proof (N.div_mod (Z.to_N d) (tm_ms t) ltac:(lia)) as Hdm. pose proof (N.mod_lt (Z.to_N d) (tm_ms t) ltac:(lia)) as Hml.
      set (q := Z.to_N d / tm_ms t) in *. set (rm := Z.to_N d mod tm_ms t) in *.
      assert (q <= Z.to_N d) by nia. assert (Z.to_N d <= 2 ^ 63 - 28800000) by (unfold d; lia). split; [lia|]. unfold start.
      assert (Z.of_N (tm_ms t * q + rm) = d) as E by lia. rewrite N2Z.inj_add, N2Z.inj_mul in E. unfold d in E.
      assert (Z.of_N rm < Z.of_N (tm_ms t))%Z by lia. rewrite N2Z.inj_add. nia. }
  unfold normalize. rewrite Es. cbn [rbind].
  assert (N.min (s + MAX_FUTURE_SLOTS) (two64 - 1) = s + 8) as -> by (unfold MAX_FUTURE_SLOTS, two64; lia).
  assert (Hmono : forall a b : N, (a <= b)%N -> (start a <= start b)%Z) by (intros; unfold start; nia).
  assert (Hadd : forall a b : N, (start (a + b)%N = start a + Z.of_N b * Z.of_N (tm_ms t))%Z) by (intros; unfold start; lia).
  destruct (N.ltb_spec (s + 8) slot) as [Hlt|Hge].
  - exists None. split; [done|]. split; [|done]. split; [done|]. intros H. exfalso.
    assert (start (s + 1 + 8)%N <= start slot)%Z as H2 by (apply Hmono; lia). rewrite Hadd in H2. lia.
  - assert (start slot <= Z.max arrival (start 0%N) + 8 * Z.of_N (tm_ms t))%Z as Hle.
    { pose proof (Hmono _ _ Hge) as H. rewrite Hadd in H. lia. }
    assert (Hst0 : (start 0%N <= 4102444800000)%Z) by (unfold start; lia).
    unfold offset_ms. rewrite Eg, Em, i64_ok by lia. cbn [rbind].
    rewrite as_i64_ok by lia.
    unfold start in Hle, Hst0.
    rewrite (i64_ok (Z.of_N slot * Z.of_N (tm_ms t))) by nia. cbn [rbind].
    rewrite i64_ok by nia. cbn [rbind]. rewrite i64_ok by nia. cbn [rbind].
    eexists. split; [reflexivity|]. split; [split; [intros _; exact Hle|done]|].
    intros e [= <-]. cbn. split_and!; done.
Qed.

(** ** Bounds *)
Lemma newest_sublist l : forall kept, newest kept l `sublist_of` l.
Proof.
  induction l as [|e l IH]; intros kept; cbn [newest]; [done|].
  destruct (_ <=? _); [by apply sublist_cons|by apply sublist_skip].
Qed.
Lemma rev_sublist {A} (l k : list A) : l `sublist_of` k -> rev l `sublist_of` rev k.
Proof.
  induction 1 as [|x l k H IH|x l k H IH]; cbn [rev]; [done|by apply sublist_app|]. by apply sublist_inserts_r.
Qed.
Lemma newest_series l node topic : forall kept, default 0 (kept !! (node, topic)) <= SNAPSHOT_MAX_EVENTS_PER_SERIES ->
  default 0 (kept !! (node, topic)) + lenN (filter (fun e => ev_node e = node /\ ev_topic e = topic) (newest kept l)) <= SNAPSHOT_MAX_EVENTS_PER_SERIES.
Proof.
  induction l as [|e l IH]; intros kept Hk; cbn [newest].
  { change (lenN (filter (fun e => ev_node e = node /\ ev_topic e = topic) [])) with 0. lia. }
  destruct (N.leb_spec SNAPSHOT_MAX_EVENTS_PER_SERIES (default 0 (kept !! (ev_node e, ev_topic e)))) as [Hm|Hm]; [by apply IH|].
  rewrite filter_cons. destruct (decide _) as [[<- <-]|Hn].
  - specialize (IH (<[(ev_node e, ev_topic e) := default 0 (kept !! (ev_node e, ev_topic e)) + 1]> kept)).
    rewrite lookup_insert in IH. cbn [default from_option id] in IH. unfold lenN in *. cbn [length].
    specialize (IH ltac:(unfold default, id in *; lia)). unfold default, id in *. lia.
  - specialize (IH (<[(ev_node e, ev_topic e) := default 0 (kept !! (ev_node e, ev_topic e)) + 1]> kept)).
    rewrite lookup_insert_ne in IH; [by apply IH|]. intros H. injection H as H1 H2. by apply Hn.
Qed.
Lemma filter_rev_len {A} (P : A -> Prop) `{forall x, Decision (P x)} (l : list A) : lenN (filter P (rev l)) = lenN (filter P l).
Proof. unfold lenN. f_equal. apply Permutation_length. rewrite rev_reverse. by rewrite reverse_Permutation. Qed.
Lemma push_sublist h e : hi_events (push_event h e) `sublist_of` hi_events h ++ [e] /\ lenN (hi_events (push_event h e)) <= HISTORY_MAX_EVENTS.
Proof.
  unfold push_event, prune. cbn [hi_events hi_max hi_retain].
  destruct (drop_old_spec (N.max (hi_max h) (ev_slot e)) (hi_retain h) (hi_events h ++ [e])) as (d & Hd & _). rewrite Hd.
  set (l := drop d (hi_events h ++ [e])). split.
  - trans l; [apply sublist_drop|apply sublist_drop].
  - unfold lenN. rewrite drop_length. fold l. unfold lenN. lia.
Qed.
Lemma bounded_pf g hs l m P : mrun (mon_start g hs) l m P ->
  lenN (hi_events (mo_hist m)) <= HISTORY_MAX_EVENTS /\ snapshot (mo_hist m) `sublist_of` P /\
  forall node topic, lenN (filter (fun e => ev_node e = node /\ ev_topic e = topic) (snapshot (mo_hist m))) <= SNAPSHOT_MAX_EVENTS_PER_SERIES.
Proof.
  intros H.
  assert (lenN (hi_events (mo_hist m)) <= HISTORY_MAX_EVENTS /\ hi_events (mo_hist m) `sublist_of` P) as [H1 H2].
  { induction H as [|l m1 P a m2 _ [IH1 IH2] Hs]; [by vm_compute|].
    assert (hi_events (mo_hist m2) = hi_events (mo_hist m1) /\ pushed_by m1 a = [] \/ hi_events (mo_hist m2) = [] \/
      exists e, mo_hist m2 = push_event (mo_hist m1) e /\ pushed_by m1 a = [e]) as [[-> ->]|[->|(e & -> & ->)]].
    { destruct a as [c f now|c|c|t| | |]; cbn [mexec pushed_by] in *.
      - left. destruct (default CIdle (mo_coll m1 !! c)); try done. destruct (normalize c f now (mo_timing m1)) as [[]| |]; try done; by injection Hs as <-.
      - right; right. destruct (mo_coll m1 !! c) as [[|e|]|]; try done. injection Hs as <-. by exists e.
      - left. destruct (mo_coll m1 !! c) as [[]|]; try done. by injection Hs as <-.
      - left. destruct (mo_ref m1); try done. destruct (_ && _); [|done]. by injection Hs as <-.
      - right; left. destruct (mo_ref m1); try done. by injection Hs as <-.
      - left. destruct (mo_ref m1); try done. by injection Hs as <-.
      - left. destruct (mo_ref m1); try done. by injection Hs as <-. }
    - by rewrite app_nil_r.
    - split; [by vm_compute|apply sublist_nil_l].
    - destruct (push_sublist (mo_hist m1) e) as [S1 S2]. split; [done|]. trans (hi_events (mo_hist m1) ++ [e]); [done|]. by apply sublist_app. }
  split; [done|]. unfold snapshot. split.
  - trans (hi_events (mo_hist m)); [|done]. rewrite <- (rev_involutive (hi_events (mo_hist m))) at 2. apply rev_sublist, newest_sublist.
  - intros node topic. rewrite filter_rev_len. pose proof (newest_series (rev (hi_events (mo_hist m))) node topic ∅) as Hn.
    rewrite lookup_empty in Hn. cbn [default from_option id] in Hn. specialize (Hn ltac:(vm_compute; done)). unfold default, id in Hn. lia.
Qed.
