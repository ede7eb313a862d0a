From Coq Require Import Ascii String.
From Verif Require Import BusSpec BusProofs CollectorSpec CollectorProofs.
Local Open Scope N_scope.

(** ** A node that is never reached *)
Lemma since_replicate k j : since (replicate k false) j -> k = S j.
Proof.
  intros [[l H]|H].
  - assert (true ∈ replicate k false) as G by (rewrite H; apply elem_of_app; right; left).
    apply elem_of_replicate in G as [? _]. done.
  - apply (f_equal length) in H. by rewrite !replicate_length in H.
Qed.
Lemma refusals_snoc l e : refusals (l ++ [e]) = (refusals l + if decide (e = ERefused) then 1 else 0)%nat.
Proof.
  unfold refusals. rewrite filter_app, app_length. f_equal.
  destruct (decide (e = ERefused)) as [->|H]; [done|]. by rewrite filter_cons_False.
Qed.
Lemma unreached_inv n l c out : cexec (new_coll n) l = Some (c, out) -> (forall t, EAccepted t ∉ l) ->
  attempts l = replicate (refusals l) false /\
  match co_phase c with
  | Spawned => l = [] /\ out = []
  | Streaming _ _ _ => False
  | _ => l <> [] /\ map ns_state out = (if (7 <=? refusals l)%nat then [Reconnecting; Down] else [Reconnecting])%list
  end.
Proof.
  revert c out. induction l as [|e l IH] using rev_ind; intros c2 out.
  - intros [= <- <-] _. done.
  - intros (c & o1 & o & Hx & Hs & ->)%cexec_snoc Hna.
    destruct (IH _ _ Hx) as [Ha Hc]; [intros t Ht; apply (Hna t), elem_of_app; by left|].
    destruct (cinv_ok _ _ _ _ Hx) as [_ _ I3 I4 I5].
    assert (attempts (l ++ [e]) = (attempts l ++ match e with ERefused => [false] | EEnd _ => [ongoing false l] | _ => [] end)%list) as Hw by apply went_snoc.
    rewrite refusals_snoc. unfold cstep in Hs.
    destruct e; destruct (co_phase c) as [| |h m w|d] eqn:Hp; try discriminate Hs; try (by destruct Hc); cbn [decide decide_rel].
    + destruct Hc as [-> ->]. cbn in I3. unfold publish_change, publish in Hs. cbn [co_last set_phase] in Hs. rewrite I3 in Hs.
      cbn in Hs. injection Hs as <- <-. done.
    + destruct Hc as [Hl Hm]. destruct (decide (ERefused = ERefused)) as [_|]; [|done].
      split; [by rewrite Hw, Ha, Nat.add_1_r, replicate_S_end|].
      assert (co_delay c = ramped (refusals l)) as Hd.
      { destruct I4 as [[H0 H]|(k & Hk & H)].
        - rewrite Ha in H0. destruct (refusals l); [done|discriminate H0].
        - rewrite Ha in Hk. apply since_replicate in Hk. by rewrite Hk. }
      injection Hs as Hs. unfold attempt_over in Hs. cbn [record] in Hs. rewrite Hd in Hs. unfold advance_delay, MAX_BACKOFF in Hs.
      rewrite ramped_down in Hs. unfold publish_change, publish in Hs. cbn [co_last co_name co_delay] in Hs.
      assert (co_last c = last (map ns_state o1)) as Hlast.
      { rewrite I3. clear. induction o1 as [|x [|y o1] IH]; [done|done|]. cbn in *. done. }
      rewrite Hlast, Hm in Hs.
      destruct (Nat.leb_spec 7 (refusals l)) as [H7|H7].
      * assert (6 <=? N.of_nat (refusals l) = true) as E6 by (apply N.leb_le; lia). rewrite E6 in Hs. cbn in Hs.
        injection Hs as <- <-. cbn [co_phase option_list]. split; [by destruct l|]. rewrite app_nil_r, Hm.
        destruct (Nat.leb_spec 7 (refusals l + 1)); [done|lia].
      * destruct (N.leb_spec 6 (N.of_nat (refusals l))) as [E6|E6]; cbn in Hs; injection Hs as <- <-; cbn [co_phase option_list]; (split; [by destruct l|]).
        -- rewrite map_app, Hm. cbn [map app ns_state]. destruct (Nat.leb_spec 7 (refusals l + 1)); [done|lia].
        -- rewrite app_nil_r, Hm. destruct (Nat.leb_spec 7 (refusals l + 1)); [lia|done].
    + exfalso. apply (Hna now), elem_of_app. right. left.
    + injection Hs as <- <-. destruct Hc as [Hl Hm]. cbn [co_phase set_phase option_list]. rewrite !app_nil_r in *. destruct (decide (EWake = ERefused)) as [|_]; [done|].
      rewrite Nat.add_0_r. split; [by rewrite Hw|]. split; [by destruct l|done].
Qed.
Lemma unreached_pf n l c out : cexec (new_coll n) l = Some (c, out) -> (forall t, EAccepted t ∉ l) -> l <> [] ->
  map ns_state out = (if (7 <=? refusals l)%nat then [Reconnecting; Down] else [Reconnecting])%list.
Proof.
  intros H Hn Hl. destruct (unreached_inv _ _ _ _ H Hn) as [_ G]. destruct (co_phase c); [by destruct G|by destruct G|done|by destruct G].
Qed.

(** ** The rate *)
Lemma frames_run c k h m w : co_phase c = Streaming h m w ->
  cexec c (replicate k EFrame) = Some (set_phase c (Streaming h (m + N.of_nat k) w), []).
Proof.
  revert c m. induction k as [|k IH]; intros c m Hp.
  - cbn. rewrite N.add_0_r, <- Hp. by destruct c.
  - cbn [replicate cexec]. unfold cstep at 1. rewrite Hp. rewrite (IH _ (m + 1)) by done. cbn.
    f_equal. f_equal. unfold set_phase. cbn. f_equal. f_equal. lia.
Qed.
Lemma rate_pf n l e t1 t2 k c out :
  e = EAccepted t1 \/ e = EBeat t1 -> cexec (new_coll n) (l ++ [e] ++ replicate k EFrame ++ [EBeat t2]) = Some (c, out) ->
  last out = Some (mkStatus n Connected (N.of_nat k, N.max (t2 - t1) 1)).
Proof.
  intros He. rewrite cexec_app. destruct (cexec (new_coll n) l) as [[c1 o1]|] eqn:E1; [|done].
  pose proof (ci_name _ _ _ _ (cinv_ok _ _ _ _ E1)) as Hn.
  cbn [app cexec]. destruct (cstep c1 e) as [[c2 o2]|] eqn:E2; [|done].
  assert (co_name c2 = n /\ exists h, co_phase c2 = Streaming h 0 t1) as [Hn2 [h Hp]].
  { unfold cstep in E2. destruct He as [-> | ->]; destruct (co_phase c1); try done; injection E2 as <- <-; cbn; eauto. }
  rewrite cexec_app, (frames_run _ _ _ _ _ Hp). cbn [cexec]. unfold cstep. cbn [co_phase set_phase]. cbn.
  intros [= <- <-]. rewrite app_assoc, last_snoc. by rewrite Hn2.
Qed.

(** ** All nodes together *)
Lemma bexec_snoc b l e b2 : bexec b (l ++ [e]) = Some b2 -> exists b1, bexec b l = Some b1 /\ bexec1 b1 e = Some b2.
Proof.
  revert b. induction l as [|x l IH]; intros b; cbn [bexec app].
  - intros H. exists b. split; [done|]. destruct (bexec1 b e); [done|done].
  - destruct (bexec1 b x) as [b1|]; [|done]. apply IH.
Qed.
Lemma steps_snoc i l e : steps_of i (l ++ [e]) = (steps_of i l ++ steps_of i [e])%list.
Proof. unfold steps_of. by rewrite omap_app. Qed.
Lemma cexec_step c l c1 o1 e c2 o : cexec c l = Some (c1, o1) -> cstep c1 e = Some (c2, o) ->
  cexec c (l ++ [e]) = Some (c2, (o1 ++ option_list o)%list).
Proof. intros H1 H2. rewrite cexec_app, H1. cbn [cexec]. by rewrite H2, app_nil_r. Qed.
Lemma step_name c e c2 o : cstep c e = Some (c2, o) -> co_name c2 = co_name c /\ forall s, o = Some s -> ns_node s = co_name c.
Proof.
  assert (forall c s, co_name (publish_change c s).1 = co_name c /\ forall x, (publish_change c s).2 = Some x -> ns_node x = co_name c) as P.
  { intros c' s. unfold publish_change. case_bool_decide; cbn; [done|]. split; [done|]. by intros x [= <-]. }
  assert (forall h, co_name (attempt_over c h).1 = co_name c /\ forall x, (attempt_over c h).2 = Some x -> ns_node x = co_name c) as Q.
  { intros h. unfold attempt_over, advance_delay. match goal with |- context [publish_change ?c' ?s] => destruct (P c' s) as [P1 P2]; destruct (publish_change c' s) end. done. }
  unfold cstep. destruct e; destruct (co_phase c); intros Hs; try discriminate Hs; injection Hs as Hs.
  - destruct (P (set_phase c Dialing) Reconnecting) as [P1 P2]. rewrite Hs in P1, P2. done.
  - specialize (Q false). by rewrite Hs in Q.
  - subst. split; [done|]. by intros s [= <-].
  - subst. done.
  - subst. split; [done|]. by intros s [= <-].
  - specialize (Q healthy). by rewrite Hs in Q.
  - subst. done.
Qed.
Definition board_ok (names : list string) (l : list BEv) (b : Board) : Prop :=
  length (bo_coll b) = length names /\
  (forall i, (length names <= i)%nat -> bo_unsent b !! i = None) /\
  (forall n, n ∉ names -> bo_status b !! n = None) /\
  forall i n, names !! i = Some n -> exists c out,
    cexec (new_coll n) (steps_of i l) = Some (c, out) /\ bo_coll b !! i = Some c /\ bo_status b !! n = last out /\
    (filter (fun s => ns_node s = n) (bo_sent b) ++ option_list (bo_unsent b !! i))%list = out.
Lemma board_pf names l b : NoDup names -> bexec (new_board names) l = Some b -> board_ok names l b.
Proof.
  intros Hnd. revert b. induction l as [|e l IH] using rev_ind; intros b2.
  - intros [= <-]. split; [apply map_length|]. split; [done|]. split; [done|]. intros i n Hi. exists (new_coll n), [].
    split; [done|]. split; [|done]. cbn. rewrite list_lookup_fmap, Hi. done.
  - intros (b & Hb & H1)%bexec_snoc. destruct (IH _ Hb) as (L1 & L2 & L3 & L4). destruct e as [j e|j]; cbn in H1.
    + destruct (bo_coll b !! j) as [c|] eqn:Hc; [|done]. destruct (bo_unsent b !! j) eqn:Hu; [done|].
      destruct (cstep c e) as [[c' o]|] eqn:Hs; [|done].
      assert (exists n, names !! j = Some n) as [n Hn].
      { apply lookup_lt_is_Some_2. rewrite <- L1. by eapply lookup_lt_Some. }
      destruct (L4 _ _ Hn) as (c0 & out & Hx & Hc0 & Hst & Hse). rewrite Hc in Hc0. injection Hc0 as <-.
      rewrite Hu in Hse. cbn in Hse. rewrite app_nil_r in Hse.
      pose proof (ci_name _ _ _ _ (cinv_ok _ _ _ _ Hx)) as Hcn. destruct (step_name _ _ _ _ Hs) as [Hn' Ho].
      assert (steps_of j [BStep j e] = [e]) as Ej. { cbn. by destruct (decide (j = j)). }
      assert (forall i, i <> j -> steps_of i [BStep j e] = []) as Ei. { intros i Hi. cbn. by destruct (decide (j = i)). }
      pose proof (cexec_step _ _ _ _ _ _ _ Hx Hs) as Hx'.
      destruct o as [s|]; injection H1 as <-; (split; [cbn; by rewrite insert_length|]).
      * specialize (Ho _ eq_refl). rewrite Hcn in Ho. split.
        { intros i Hi. cbn. rewrite lookup_insert_ne; [by apply L2|]. intros <-. apply lookup_lt_Some in Hn. lia. }
        split. { intros m Hm. cbn. rewrite lookup_insert_ne; [by apply L3|]. intros <-. apply Hm. rewrite Ho. by eapply elem_of_list_lookup_2. }
        intros i m Hi. rewrite steps_snoc. cbn [bo_coll bo_status bo_unsent bo_sent]. destruct (decide (i = j)) as [->|Hne].
        -- rewrite Hn in Hi. injection Hi as <-. rewrite Ej. exists c', (out ++ [s])%list. split; [done|].
           split; [apply list_lookup_insert; by eapply lookup_lt_Some|]. split; [by rewrite Ho, lookup_insert, last_snoc|].
           rewrite lookup_insert. by rewrite Hse.
        -- rewrite Ei, app_nil_r by done. destruct (L4 _ _ Hi) as (ci & oi & G1 & G2 & G3 & G4). exists ci, oi.
           split; [done|]. split; [by rewrite list_lookup_insert_ne|]. split; [|by rewrite lookup_insert_ne].
           rewrite lookup_insert_ne; [done|]. rewrite Ho. intros <-. apply Hne. by eapply NoDup_lookup.
      * split; [done|]. split; [done|].
        intros i m Hi. rewrite steps_snoc. cbn [bo_coll bo_status bo_unsent bo_sent]. destruct (decide (i = j)) as [->|Hne].
        -- rewrite Hn in Hi. injection Hi as <-. rewrite Ej. exists c', out. cbn [option_list] in Hx'. rewrite app_nil_r in Hx'. split; [done|].
           split; [apply list_lookup_insert; by eapply lookup_lt_Some|]. split; [done|]. by rewrite Hu, app_nil_r.
        -- rewrite Ei, app_nil_r by done. destruct (L4 _ _ Hi) as (ci & oi & G1 & G2 & G3 & G4). exists ci, oi.
           split; [done|]. split; [by rewrite list_lookup_insert_ne|]. done.
    + destruct (bo_unsent b !! j) as [s|] eqn:Hu; [|done]. injection H1 as <-.
      split; [done|]. split. { intros i Hi. cbn. destruct (decide (i = j)) as [->|H]; [by rewrite lookup_delete|rewrite lookup_delete_ne by done; by apply L2]. }
      split; [done|].
      assert (exists n, names !! j = Some n) as [n Hn].
      { destruct (names !! j) eqn:E; [by eexists|]. apply lookup_ge_None in E. by rewrite (L2 _ E) in Hu. }
      destruct (L4 _ _ Hn) as (c & out & Hx & Hc & Hst & Hse). rewrite Hu in Hse.
      assert (ns_node s = n) as Hsn.
      { pose proof (ci_node _ _ _ _ (cinv_ok _ _ _ _ Hx)) as F. rewrite <- Hse in F. apply Forall_app in F as [_ F]. by inversion F. }
      intros i m Hi. rewrite steps_snoc. cbn [steps_of omap list_omap]. rewrite app_nil_r. cbn [bo_coll bo_status bo_unsent bo_sent].
      destruct (L4 _ _ Hi) as (ci & oi & G1 & G2 & G3 & G4). exists ci, oi. split; [done|]. split; [done|]. split; [done|].
      rewrite filter_app. destruct (decide (i = j)) as [->|Hne].
      * rewrite Hn in Hi. injection Hi as <-. rewrite lookup_delete. rewrite Hu in G4. rewrite <- G4. cbn [option_list].
        rewrite app_nil_r. by rewrite filter_cons_True.
      * rewrite lookup_delete_ne by done. rewrite filter_cons_False; [by rewrite app_nil_r|].
        intros Hm. apply Hne. eapply NoDup_lookup; [done|done|]. by rewrite <- Hm, Hsn.
Qed.

(** ** The configuration *)
Lemma trim_slashes (u : list ascii) k :
  (forall v, u <> v ++ ["/"%char])%list -> trim_end_slashes (u ++ replicate k "/"%char) = u.
Proof.
  intros Hu. unfold trim_end_slashes. rewrite rev_app_distr.
  assert (rev (replicate k "/"%char) = replicate k "/"%char) as ->.
  { induction k as [|k IH]; [done|]. cbn [replicate rev]. by rewrite IH, <- replicate_S_end. }
  match goal with |- rev (?f _) = _ => set (go := f) end.
  assert (go (replicate k "/"%char ++ rev u)%list = go (rev u)) as ->. { induction k as [|k IH]; [done|]. cbn. exact IH. }
  destruct u as [|c u _] using rev_ind; [done|]. rewrite rev_app_distr. cbn. destruct (ascii_dec c "/") as [->|Hc].
  - by destruct (Hu u).
  - cbn. by rewrite rev_involutive.
Qed.
Lemma ascii_app (s t : string) : list_ascii_of_string (s ++ t) = (list_ascii_of_string s ++ list_ascii_of_string t)%list.
Proof. induction s as [|c s IH]; [done|]. change (String c s ++ t)%string with (String c (s ++ t)). cbn. by rewrite IH. Qed.
Lemma app_ascii l k : string_of_list_ascii (l ++ k) = (string_of_list_ascii l ++ string_of_list_ascii k)%string.
Proof. induction l as [|c l IH]; [done|]. cbn. rewrite IH. reflexivity. Qed.
Lemma str_app_assoc (s t u : string) : ((s ++ t) ++ u = s ++ (t ++ u))%string.
Proof. induction s as [|c s IH]; [done|]. change (String c ((s ++ t) ++ u) = String c (s ++ (t ++ u)))%string. by rewrite IH. Qed.
Lemma concat_commas l : String.concat "," l = comma_list l.
Proof. induction l as [|x [|y l] IH]; [done|done|]. cbn in *. by rewrite IH. Qed.
Lemma endpoint_pf (u p : string) k : (forall v, u <> (v ++ "/")%string) ->
  endpoint (u ++ string_of_list_ascii (replicate k "/"%char)) p = (u ++ p)%string.
Proof.
  intros Hu. unfold endpoint. rewrite ascii_app, list_ascii_of_string_of_list_ascii, trim_slashes.
  - by rewrite app_ascii, !string_of_list_ascii_of_string.
  - intros v Hv. apply (Hu (string_of_list_ascii v)). apply (f_equal string_of_list_ascii) in Hv.
    by rewrite app_ascii, string_of_list_ascii_of_string in Hv.
Qed.

Lemma subscription_pf u k ts :
  (forall v, u <> (v ++ "/")%string) -> ts <> [] ->
  events_url (u ++ string_of_list_ascii (replicate k "/"%char)) (map topic_str ts) =
    (u ++ "/lean/v0/events" ++ "?topics=" ++ String.concat "," (map topic_str ts))%string /\
  parse_topics (Some (String.concat "," (map topic_str ts))) = Some ts.
Proof.
  intros Hu Ht. split.
  - unfold events_url. rewrite (endpoint_pf _ _ _ Hu). apply str_app_assoc.
  - apply parse_topics_spec. split; [done|]. f_equal. apply concat_commas.
Qed.

(** ** The slot geometry *)
Lemma valid_plausible t : timing_valid t = true <-> plausible t.
Proof.
  unfold timing_valid, plausible, MAX_MS_PER_SLOT, MAX_GENESIS_TIME.
  rewrite !andb_true_iff, !negb_true_iff, orb_false_iff, !N.eqb_neq, !N.ltb_ge. lia.
Qed.
Lemma fetch_some l f : fetch_first l = Some f <-> first_answer l f.
Proof.
  induction l as [|[[g|] [[ms n]|]] l IH]; cbn.
  - split; [done|]. intros (l1 & l2 & H & _). by destruct l1.
  - split.
    + intros [= <-]. by exists [], l.
    + intros (l1 & l2 & H & Hs). destruct l1 as [|a l1].
      * injection H as -> -> -> _. by destruct f.
      * injection H as <- _. apply Forall_inv in Hs as [Hs|Hs]; done.
  - rewrite IH. split; intros (l1 & l2 & H & Hs).
    + exists ((Some g, None) :: l1)%list, l2. split; [by rewrite H|]. constructor; [by right|done].
    + destruct l1 as [|a l1]; [done|]. injection H as _ H. exists l1, l2. split; [done|]. by apply Forall_inv_tail in Hs.
  - rewrite IH. split; intros (l1 & l2 & H & Hs).
    + exists ((None, Some (ms, n)) :: l1)%list, l2. split; [by rewrite H|]. constructor; [by left|done].
    + destruct l1 as [|a l1]; [done|]. injection H as _ H. exists l1, l2. split; [done|]. by apply Forall_inv_tail in Hs.
  - rewrite IH. split; intros (l1 & l2 & H & Hs).
    + exists ((None, None) :: l1)%list, l2. split; [by rewrite H|]. constructor; [by left|done].
    + destruct l1 as [|a l1]; [done|]. injection H as _ H. exists l1, l2. split; [done|]. by apply Forall_inv_tail in Hs.
Qed.
Lemma fetch_none l : fetch_first l = None <-> Forall silent l.
Proof.
  induction l as [|[[g|] [[ms n]|]] l IH]; cbn; rewrite ?Forall_cons; try (rewrite IH; unfold silent; cbn; tauto).
  - split; [constructor|done].
  - split; [done|]. by intros [[H|H] _].
Qed.
Lemma resolved_pf go mo l t : bootstrap go mo l = Ok t <-> plausible t /\
  ((exists f, first_answer l f /\ t = mkTiming (default (tm_genesis f) go) (default (tm_ms f) mo) (tm_intervals f)) \/
   (Forall silent l /\ go = Some (tm_genesis t) /\ mo = Some (tm_ms t) /\ tm_intervals t = 5)).
Proof.
  rewrite <- valid_plausible. unfold bootstrap. destruct (fetch_first l) as [f|] eqn:Hf.
  - assert (~ Forall silent l) as Hns by (rewrite <- fetch_none, Hf; done). pose proof (proj1 (fetch_some _ _) Hf) as Ha.
    assert (forall g, first_answer l g -> g = f) as Hu. { intros g Hg%fetch_some. rewrite Hf in Hg. by injection Hg. }
    assert ((let! g := ok_or (or_else go (option_map tm_genesis (Some f))) in
             let! m := ok_or (or_else mo (option_map tm_ms (Some f))) in
             if timing_valid (mkTiming g m (tm_intervals f)) then Ok (mkTiming g m (tm_intervals f)) else Err ImplausibleGeometry) =
            (if timing_valid (mkTiming (default (tm_genesis f) go) (default (tm_ms f) mo) (tm_intervals f))
             then Ok (mkTiming (default (tm_genesis f) go) (default (tm_ms f) mo) (tm_intervals f)) else Err ImplausibleGeometry)) as ->.
    { by destruct go, mo. }
    set (x := mkTiming (default (tm_genesis f) go) (default (tm_ms f) mo) (tm_intervals f)). split.
    + destruct (timing_valid x) eqn:Hv; [|done]. intros [= <-]. split; [done|]. left. by exists f.
    + intros [Hv [(g & Hg & ->)|[H _]]]; [|done]. rewrite (Hu _ Hg) in *. fold x in Hv |- *. by rewrite Hv.
  - pose proof (proj1 (fetch_none _) Hf) as Hs.
    assert (forall g, ~ first_answer l g) as Hu. { intros g Hg%fetch_some. by rewrite Hf in Hg. }
    destruct go as [g|]; cbn.
    + destruct mo as [m|]; cbn.
      * unfold DEFAULT_INTERVALS_PER_SLOT. split.
        -- destruct (timing_valid (mkTiming g m 5)) eqn:Hv; [|done]. intros [= <-]. split; [done|]. by right.
        -- intros [Hv [(f & Hf' & _)|(_ & [= ->] & [= ->] & H)]]; [by destruct (Hu f)|].
           destruct t as [a b c]. cbn in *. rewrite <- H, Hv. done.
      * split; [done|]. intros [_ [(f & Hf' & _)|(_ & _ & H & _)]]; [by destruct (Hu f)|done].
    + split; [done|]. intros [_ [(f & Hf' & _)|(_ & H & _)]]; [by destruct (Hu f)|done].
Qed.
Lemma no_source_pf go mo l : bootstrap go mo l = Err NoTimingSource <-> Forall silent l /\ (go = None \/ mo = None).
Proof.
  rewrite <- fetch_none. unfold bootstrap. destruct (fetch_first l) as [f|]; destruct go as [g|], mo as [m|]; cbn;
    try (destruct (timing_valid _)); split; try done; try (intros [? [?|?]]; done); intros _; split; auto.
Qed.
Lemma no_panic_pf go mo l : bootstrap go mo l <> Panic.
Proof.
  unfold bootstrap. destruct (fetch_first l) as [f|]; destruct go as [g|], mo as [m|]; cbn; try (destruct (timing_valid _)); done.
Qed.
Lemma refresh_pf go mo cur l t : refresh go mo cur l = Some t <-> bootstrap go mo l = Ok t /\ t <> cur.
Proof.
  unfold refresh. destruct (bootstrap go mo l) as [x|e|]; [|by split; [|intros [? _]]..].
  case_bool_decide as H.
  - split; [done|]. intros [[= ->] ?]. done.
  - split; [by intros [= ->]|]. by intros [[= ->] _].
Qed.
Lemma kept_pf go mo l0 l1 f cur :
  bootstrap go mo l0 = Ok cur ->
  (forall a, a ∈ (l0 ++ l1)%list -> silent a \/ a = (Some (tm_genesis f), Some (tm_ms f, tm_intervals f))) ->
  go = None \/ mo = None \/ tm_intervals f = 5 ->
  refresh go mo cur l1 = None.
Proof.
  intros H0 Ha Hc. destruct (refresh go mo cur l1) as [t|] eqn:Hr; [|done]. exfalso.
  apply refresh_pf in Hr as [H1 Hne]. apply resolved_pf in H0 as [_ H0]. apply resolved_pf in H1 as [_ H1].
  assert (forall l g, (l = l0 \/ l = l1) -> first_answer l g -> g = f) as Hu.
  { intros l g Hl (k1 & k2 & Hk & _). destruct (Ha (Some (tm_genesis g), Some (tm_ms g, tm_intervals g))) as [[H|H]|H]; try done.
    - apply elem_of_app. destruct Hl as [-> | ->]; [left|right]; rewrite Hk; apply elem_of_app; right; left.
    - injection H as H2 H3 H4. destruct g, f. cbn in *. by subst. }
  apply Hne. destruct H0 as [(f0 & F0 & ->)|(S0 & G0 & M0 & I0)]; destruct H1 as [(f1 & F1 & ->)|(S1 & G1 & M1 & I1)].
  - rewrite (Hu _ _ (or_introl eq_refl) F0), (Hu _ _ (or_intror eq_refl) F1). done.
  - rewrite (Hu _ _ (or_introl eq_refl) F0). destruct Hc as [Hc|[Hc|Hc]]; [by rewrite Hc in G1|by rewrite Hc in M1|].
    rewrite G1, M1, Hc. cbn. destruct t. cbn in *. by subst.
  - rewrite (Hu _ _ (or_intror eq_refl) F1). destruct Hc as [Hc|[Hc|Hc]]; [by rewrite Hc in G0|by rewrite Hc in M0|].
    rewrite G0, M0, Hc. cbn. destruct cur. cbn in *. by subst.
  - rewrite G0 in G1. rewrite M0 in M1. injection G1 as G1. injection M1 as M1. destruct t, cur. cbn in *. by subst.
Qed.
